(** Reading back what json.dump writes with its default separators. *)
From Verif Require Import Common Common_Proofs PyStr_Model PyStr_Proofs Json_Model Json_Spec Json_Proofs Json2_Proofs Json3_Proofs Julia_Model.
Local Open Scope string_scope.
Local Open Scope nat_scope.

Notation w := (write ", " ": ").
Notation member := (fun kv => write_str (fst kv) ++ ": " ++ w (snd kv)).

Lemma d_first_good v r : every (fun _ => True) float_text (fun _ => True) v -> starts good_first (w v ++ r) = true.
Proof.
  destruct v as [ |[]|z|t|s|l|l]; intros V; try reflexivity.
  - cbn [write]. destruct (dec_parts z) as (sg & ip & -> & [-> | ->] & I); cbn [append]; [apply int_good; auto|reflexivity].
  - cbn [write]. cbn [every] in V. destruct V as [->|[->|[->|(sg & ip & fp & ep & -> & [-> | ->] & I & _)]]]; try reflexivity.
    cbn [append]. rewrite append_assoc. apply int_good; auto.
Qed.
Lemma skip_space s : skip_ws (String " " s) = skip_ws s. Proof. reflexivity. Qed.
Definition d_reads (v : json) : Prop := valid v -> forall fuel r, size v <= fuel -> starts num_char r = false ->
  parse fuel (w v ++ r) = Ok (merged v, r).
Lemma d_items_read l : Forall d_reads l -> Forall valid l -> l <> [] ->
  forall fuel r, list_sum (map (fun x => S (size x)) l) <= fuel ->
  parse_items fuel (String.concat ", " (map w l) ++ "]" ++ r) = Ok (map merged l, r).
Proof.
  induction l as [|x l IH]; intros HR HV N fuel r HF; [congruence|].
  inv HR. inv HV. cbn [map list_sum fold_right] in HF. destruct fuel as [|fuel]; [lia|].
  cbn [parse_items]. destruct l as [|y l].
  - cbn [map String.concat]. rewrite H1 by (auto; cbn in *; lia). reflexivity.
  - cbn [map]. rewrite concat_cons, !append_assoc. rewrite H1 by (auto; cbn in *; lia).
    cbn [bind fst snd]. cbn [append]. cbn -[w String.concat parse_items map append skip_ws]. cbn [skip_ws]. change (ws ",") with false. cbv iota.
    cbn [eat]. change (Ascii.eqb "," "]") with false. change (Ascii.eqb "," ",") with true. cbv iota.
    assert (G : starts good_first (String.concat ", " (map w (y :: l)) ++ String "]" r) = true).
    { inv H4. destruct l; cbn [map String.concat]; [|rewrite append_assoc]; apply d_first_good; auto. }
    rewrite skip_space, skip_ws_id by (apply good_ws; exact G).
    change (String "]" r) with ("]" ++ r). change (w y :: map w l) with (map w (y :: l)).
    rewrite IH by (auto; try congruence; cbn in *; lia). reflexivity.
Qed.

Lemma d_members_read l : Forall (fun kv => d_reads (snd kv)) l -> Forall (fun kv => valid (snd kv)) l -> l <> [] ->
  forall fuel acc r, list_sum (map (fun kv => S (size (snd kv))) l) <= fuel ->
  parse_members fuel (String.concat ", " (map member l) ++ "}" ++ r) acc =
  Ok (fold_left (fun a kv => oset a (fst kv) (snd kv)) (map (fun kv => (fst kv, merged (snd kv))) l) acc, r).
Proof.
  induction l as [|[k x] l IH]; intros HR HV N fuel acc r HF; [congruence|].
  inv HR. inv HV. cbn [map list_sum fold_right snd fst] in HF, H1, H3. destruct fuel as [|fuel]; [lia|].
  assert (ST : forall rest, starts num_char rest = false ->
             parse_members (S fuel) ((write_str k ++ ": " ++ w x) ++ rest) acc =
             let acc' := oset acc k (merged x) in
             match eat "}" (skip_ws rest), eat "," (skip_ws rest) with
             | Some r, _ => Ok (acc', r)
             | None, Some r => parse_members fuel (skip_ws r) acc'
             | None, None => Raise ValueError
             end).
  { intros rest S. unfold write_str. rewrite !append_assoc. unfold quote at 1. cbn [append parse_members].
    change (nat_of_ascii (ascii_of_nat 34) =? 34) with true. cbv iota. rewrite escape_scan.
    cbn [bind fst snd append]. change (skip_ws (String ":" (String " " (w x ++ rest)))) with (String ":" (String " " (w x ++ rest))).
    cbn [eat]. change (Ascii.eqb ":" ":") with true. cbv iota.
    rewrite skip_space, skip_ws_id by (apply good_ws, d_first_good; auto).
    rewrite H1 by (auto; lia). reflexivity. }
  destruct l as [|[k' y] l].
  - cbn [map String.concat fst snd]. rewrite ST by reflexivity. reflexivity.
  - cbn [map]. rewrite concat_cons. cbn [fst snd]. rewrite append_assoc, ST by reflexivity. cbv zeta.
    cbn [append]. change (skip_ws (String "," ?s)) with (String "," s).
    cbn [skip_ws]. change (ws ",") with false. cbv iota.
    cbn [eat]. change (Ascii.eqb "," "}") with false. change (Ascii.eqb "," ",") with true. cbv iota.
    assert (G : starts good_first (String.concat ", " (map member ((k', y) :: l)) ++ String "}" r) = true).
    { destruct l; reflexivity. }
    rewrite skip_space. change (skip_ws _) with (skip_ws (String.concat ", " (map member ((k', y) :: l)) ++ String "}" r)) at 1.
    rewrite skip_ws_id by (apply good_ws; exact G).
    change (String "}" r) with ("}" ++ r).
    rewrite IH by (auto; try congruence; cbn in *; lia). reflexivity.
Qed.

Theorem d_parse_write v : d_reads v.
Proof.
  induction v as [ |b|z|t|s|l IH|l IH] using json_ind'; intros V fuel r HF R; (destruct fuel as [|fuel]; [cbn in HF; lia|]).
  - reflexivity.
  - destruct b; reflexivity.
  - apply parse_int; auto.
  - apply parse_float; auto.
  - cbn [write merged]. unfold write_str. rewrite !append_assoc. unfold quote at 1. cbn [append parse].
    change (nat_of_ascii (ascii_of_nat 34) =? 34) with true. cbv iota. rewrite escape_scan. reflexivity.
  - destruct l as [|x l]; [reflexivity|].
    apply every_arr in V. cbn [write merged]. cbn [size] in HF. apply le_S_n in HF.
    rewrite !append_assoc. cbn [append parse].
    change (nat_of_ascii "[" =? 34) with false. change (Ascii.eqb "[" "[") with true. cbv iota.
    assert (G : starts good_first (String.concat ", " (map w (x :: l)) ++ String "]" r) = true).
    { inv V. destruct l; cbn [map String.concat]; [|rewrite append_assoc]; apply d_first_good; auto. }
    rewrite skip_ws_id by (apply good_ws; exact G). rewrite good_close by exact G.
    change (String "]" r) with ("]" ++ r). rewrite d_items_read by (auto; congruence). reflexivity.
  - destruct l as [|[k x] l]; [reflexivity|].
    apply every_obj in V. destruct V as [_ V].
    assert (V' : Forall (fun kv => valid (snd kv)) ((k, x) :: l)) by (eapply Forall_impl; [|exact V]; cbn; intros ? [_ ?]; auto).
    cbn [write merged]. cbn [size] in HF. apply le_S_n in HF.
    rewrite !append_assoc. cbn [append parse].
    change (nat_of_ascii "{" =? 34) with false. change (Ascii.eqb "{" "[") with false. change (Ascii.eqb "{" "{") with true. cbv iota.
    assert (G : starts (fun c => nat_of_ascii c =? 34) (String.concat ", " (map member ((k, x) :: l)) ++ String "}" r) = true).
    { destruct l; reflexivity. }
    rewrite skip_ws_id, eat_no.
    2-3: destruct l; reflexivity.
    change (String "}" r) with ("}" ++ r). rewrite d_members_read by (auto; congruence). reflexivity.
Qed.
Lemma d_concat_length f g (l : list json) : (forall x, In x l -> g x <= String.length (f x)) ->
  list_sum (map (fun x => S (g x)) l) <= S (String.length (String.concat ", " (map f l))).
Proof.
  induction l as [|x l IH]; intros H; [cbn; lia|].
  cbn [map list_sum fold_right]. change (fold_right Nat.add 0 (map (fun x => S (g x)) l)) with (list_sum (map (fun x => S (g x)) l)).
  destruct l as [|y l].
  - cbn. specialize (H x (or_introl eq_refl)). lia.
  - cbn [map]. rewrite concat_cons, !append_length. specialize (IH (fun z Hz => H z (or_intror Hz))).
    cbn [map] in IH. pose proof (H x (or_introl eq_refl)). cbn [String.length] in *. lia.
Qed.
Lemma d_concat_length' f g (l : list (string * json)) : (forall x, In x l -> g x <= String.length (f x)) ->
  list_sum (map (fun x => S (g x)) l) <= S (String.length (String.concat ", " (map f l))).
Proof.
  induction l as [|x l IH]; intros H; [cbn; lia|].
  cbn [map list_sum fold_right]. change (fold_right Nat.add 0 (map (fun x => S (g x)) l)) with (list_sum (map (fun x => S (g x)) l)).
  destruct l as [|y l].
  - cbn. specialize (H x (or_introl eq_refl)). lia.
  - cbn [map]. rewrite concat_cons, !append_length. specialize (IH (fun z Hz => H z (or_intror Hz))).
    cbn [map] in IH. pose proof (H x (or_introl eq_refl)). cbn [String.length] in *. lia.
Qed.
Lemma d_size_length v : valid v -> size v <= String.length (w v).
Proof.
  induction v as [ |b|z|t|s|l IH|l IH] using json_ind'; intros V; try (cbn; lia).
  - destruct b; cbn; lia.
  - cbn [write size]. pose proof (dec_not_empty z). destruct (dec z); [congruence|cbn; lia].
  - pose proof (d_first_good (JFloat t) "" V) as F. rewrite append_nil_r in F.
    cbn [write size] in *. destruct t; [discriminate|cbn; lia].
  - apply every_arr in V. cbn [write size]. rewrite !append_length. cbn [String.length].
    pose proof (d_concat_length w size l) as C. rewrite Forall_forall in IH, V.
    specialize (C (fun x H => IH x H (V x H))). lia.
  - apply every_obj in V. destruct V as [_ V]. cbn [write size]. rewrite !append_length. cbn [String.length].
    pose proof (d_concat_length' member (fun kv => size (snd kv)) l) as C. rewrite Forall_forall in IH, V.
    assert (D : forall x : string * json, In x l -> size (snd x) <= String.length (member x)).
    { intros x H. rewrite !append_length. specialize (IH x H (proj2 (V x H))). lia. }
    specialize (C D). lia.
Qed.


Theorem loads_dumps v : valid v -> distinct v -> loads (dumps v) = Ok v.
Proof.
  intros V D. unfold loads, dumps. pose proof (d_size_length v V) as S.
  pose proof (d_parse_write v V (Datatypes.S (String.length (w v))) "" ltac:(lia) eq_refl) as P.
  pose proof (d_first_good v "" V) as G. rewrite append_nil_r in P, G.
  rewrite skip_ws_id by (apply good_ws; auto). rewrite P. cbn [bind fst snd skip_ws]. f_equal. apply merged_distinct; auto.
Qed.
