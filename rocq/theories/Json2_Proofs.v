(** Reading back what was written. *)
From Verif Require Import Common Common_Proofs PyStr_Model PyStr_Proofs Json_Model Json_Spec Json_Proofs.
Local Open Scope string_scope.
Local Open Scope nat_scope.

(** dictionaries with repeated keys: the last value, at the first place *)
Fixpoint merged (v : json) : json :=
  match v with
  | JArr l => JArr (map merged l)
  | JObj l => JObj (fold_left (fun acc kv => oset acc (fst kv) (snd kv)) (map (fun kv => (fst kv, merged (snd kv))) l) [])
  | _ => v
  end.
Fixpoint size (v : json) : nat :=
  match v with
  | JArr l => 1 + list_sum (map (fun x => S (size x)) l)
  | JObj l => 1 + list_sum (map (fun kv => S (size (snd kv))) l)
  | _ => 1
  end.

Notation w := (write "," ":").
Notation member := (fun kv => write_str (fst kv) ++ ":" ++ w (snd kv)).

Definition good_first (c : ascii) : bool := negb (ws c || Ascii.eqb c "]" || Ascii.eqb c "," || Ascii.eqb c "}").
Lemma dig_good c : isdig c = true -> good_first c = true.
Proof.
  intros H. unfold good_first, ws. rewrite !(dig_not c) by auto. apply isdig_digit in H.
  repeat match goal with |- context [nat_of_ascii c =? ?k] => replace (nat_of_ascii c =? k) with false by (symmetry; apply Nat.eqb_neq; lia) end.
  reflexivity.
Qed.
Lemma int_good ip r : int_text ip -> starts good_first (ip ++ r) = true.
Proof.
  intros H. pose proof (int_first ip r H) as D. destruct (ip ++ r); cbn in *; auto. apply dig_good; auto.
Qed.
Lemma dec_parts z : exists sg ip, dec z = sg ++ ip /\ (sg = "" \/ sg = "-") /\ int_text ip.
Proof.
  destruct z as [|p|p]; cbn [dec].
  - exists "", "0". repeat split; auto. left; auto.
  - exists "", (dec_N (N.pos p)). repeat split; auto. apply int_text_dec_N.
  - exists "-", (dec_N (N.pos p)). repeat split; auto. apply int_text_dec_N.
Qed.
Lemma first_good v r : every (fun _ => True) float_text (fun _ => True) v -> starts good_first (w v ++ r) = true.
Proof.
  destruct v as [ |[]|z|t|s|l|l]; intros V; try reflexivity.
  - cbn [write]. destruct (dec_parts z) as (sg & ip & -> & [-> | ->] & I); cbn [append]; [apply int_good; auto|reflexivity].
  - cbn [write]. cbn [every] in V. destruct V as [->|[->|[->|(sg & ip & fp & ep & -> & [-> | ->] & I & _)]]]; try reflexivity.
    cbn [append]. rewrite append_assoc. apply int_good; auto.
Qed.
Lemma good_ws s : starts good_first s = true -> starts ws s = false.
Proof. destruct s as [|c s]; cbn; auto. unfold good_first. destruct (ws c); cbn; congruence. Qed.
Lemma good_close s : starts good_first s = true -> eat "]" s = None.
Proof.
  destruct s as [|c s]; cbn [starts eat]; auto. unfold good_first.
  destruct (Ascii.eqb c "]"); rewrite ?orb_true_r; cbn; congruence.
Qed.

Lemma parse_int fuel z r : starts num_char r = false -> parse (S fuel) (dec z ++ r) = Ok (JInt z, r).
Proof.
  intros R. pose proof (py_int_dec z) as P. destruct (dec_parts z) as (sg & ip & E & SG & I).
  rewrite E in *. rewrite append_assoc.
  pose proof (scan_number_app sg ip "" "" r SG I (or_introl eq_refl) (or_introl eq_refl) R) as N.
  cbn [append String.eqb andb] in N. rewrite P in N.
  assert (L : scan_literal literals (sg ++ ip ++ r) = None).
  { destruct SG as [-> | ->]; cbn [append]; [apply dig_literal|apply (minus_literal (ip ++ _))]; apply int_first; auto. }
  assert (D : starts (fun c => isdig c || Ascii.eqb c "-") (sg ++ ip ++ r) = true).
  { pose proof (int_first ip r I) as F. destruct SG as [-> | ->]; cbn [append]; auto.
    destruct (ip ++ r); cbn in *; [discriminate|]. rewrite F. auto. }
  destruct (sg ++ ip ++ r) as [|c s] eqn:Q; [discriminate|]. cbn [starts] in D.
  cbn [parse]. rewrite L, N.
  replace (nat_of_ascii c =? 34) with false. replace (Ascii.eqb c "[") with false. replace (Ascii.eqb c "{") with false. reflexivity.
  all: symmetry; clear - D; apply orb_true_iff in D; destruct D as [D|D];
    [rewrite ?eqb_code; apply isdig_digit in D; apply Nat.eqb_neq; cbn; lia | apply Ascii.eqb_eq in D; subst; reflexivity].
Qed.
Lemma parse_float fuel t r : float_text t -> starts num_char r = false -> parse (S fuel) (t ++ r) = Ok (JFloat t, r).
Proof.
  intros [->|[->|[->|(sg & ip & fp & ep & -> & SG & I & F & E & X)]]] R; try reflexivity.
  rewrite !append_assoc.
  pose proof (scan_number_app sg ip fp ep r SG I F E R) as N.
  replace (String.eqb fp "" && String.eqb ep "") with false in N.
  2:{ symmetry. destruct X as [X|X]; apply (proj2 (String.eqb_neq _ _)) in X; rewrite X; auto. apply andb_false_r. }
  assert (L : scan_literal literals (sg ++ ip ++ fp ++ ep ++ r) = None).
  { destruct SG as [-> | ->]; cbn [append]; [apply dig_literal|apply (minus_literal (ip ++ _))]; apply int_first; auto. }
  assert (D : starts (fun c => isdig c || Ascii.eqb c "-") (sg ++ ip ++ fp ++ ep ++ r) = true).
  { pose proof (int_first ip (fp ++ ep ++ r) I) as FI. destruct SG as [-> | ->]; cbn [append]; auto.
    destruct (ip ++ fp ++ ep ++ r); cbn in *; [discriminate|]. rewrite FI. auto. }
  destruct (sg ++ ip ++ fp ++ ep ++ r) as [|c s] eqn:Q; [discriminate|]. cbn [starts] in D.
  cbn [parse]. rewrite L, N.
  replace (nat_of_ascii c =? 34) with false. replace (Ascii.eqb c "[") with false. replace (Ascii.eqb c "{") with false. reflexivity.
  all: symmetry; clear - D; apply orb_true_iff in D; destruct D as [D|D];
    [rewrite ?eqb_code; apply isdig_digit in D; apply Nat.eqb_neq; cbn; lia | apply Ascii.eqb_eq in D; subst; reflexivity].
Qed.

Definition reads (v : json) : Prop := valid v -> forall fuel r, size v <= fuel -> starts num_char r = false ->
  parse fuel (w v ++ r) = Ok (merged v, r).
Lemma concat_cons sep x y l : String.concat sep (x :: y :: l) = x ++ sep ++ String.concat sep (y :: l).
Proof. reflexivity. Qed.

Lemma items_read l : Forall reads l -> Forall valid l -> l <> [] ->
  forall fuel r, list_sum (map (fun x => S (size x)) l) <= fuel ->
  parse_items fuel (String.concat "," (map w l) ++ "]" ++ r) = Ok (map merged l, r).
Proof.
  induction l as [|x l IH]; intros HR HV N fuel r HF; [congruence|].
  inv HR. inv HV. cbn [map list_sum fold_right] in HF. destruct fuel as [|fuel]; [lia|].
  cbn [parse_items]. destruct l as [|y l].
  - cbn [map String.concat]. rewrite H1 by (auto; cbn in *; lia). reflexivity.
  - cbn [map]. rewrite concat_cons, !append_assoc. rewrite H1 by (auto; cbn in *; lia).
    cbn [bind fst snd]. cbn [append]. cbn -[w String.concat parse_items map append skip_ws]. cbn [skip_ws]. change (ws ",") with false. cbv iota.
    cbn [eat]. change (Ascii.eqb "," "]") with false. change (Ascii.eqb "," ",") with true. cbv iota.
    assert (G : starts good_first (String.concat "," (map w (y :: l)) ++ String "]" r) = true).
    { inv H4. destruct l; cbn [map String.concat]; [|rewrite append_assoc]; apply first_good; auto. }
    rewrite skip_ws_id by (apply good_ws; exact G).
    change (String "]" r) with ("]" ++ r). change (w y :: map w l) with (map w (y :: l)).
    rewrite IH by (auto; try congruence; cbn in *; lia). reflexivity.
Qed.

Lemma members_read l : Forall (fun kv => reads (snd kv)) l -> Forall (fun kv => valid (snd kv)) l -> l <> [] ->
  forall fuel acc r, list_sum (map (fun kv => S (size (snd kv))) l) <= fuel ->
  parse_members fuel (String.concat "," (map member l) ++ "}" ++ r) acc =
  Ok (fold_left (fun a kv => oset a (fst kv) (snd kv)) (map (fun kv => (fst kv, merged (snd kv))) l) acc, r).
Proof.
  induction l as [|[k x] l IH]; intros HR HV N fuel acc r HF; [congruence|].
  inv HR. inv HV. cbn [map list_sum fold_right snd fst] in HF, H1, H3. destruct fuel as [|fuel]; [lia|].
  assert (ST : forall rest, starts num_char rest = false ->
             parse_members (S fuel) ((write_str k ++ ":" ++ w x) ++ rest) acc =
             let acc' := oset acc k (merged x) in
             match eat "}" (skip_ws rest), eat "," (skip_ws rest) with
             | Some r, _ => Ok (acc', r)
             | None, Some r => parse_members fuel (skip_ws r) acc'
             | None, None => Raise ValueError
             end).
  { intros rest S. unfold write_str. rewrite !append_assoc. unfold quote at 1. cbn [append parse_members].
    change (nat_of_ascii (ascii_of_nat 34) =? 34) with true. cbv iota. rewrite escape_scan.
    cbn [bind fst snd append]. change (skip_ws (String ":" (w x ++ rest))) with (String ":" (w x ++ rest)).
    cbn [eat]. change (Ascii.eqb ":" ":") with true. cbv iota.
    rewrite skip_ws_id by (apply good_ws, first_good; auto).
    rewrite H1 by (auto; lia). reflexivity. }
  destruct l as [|[k' y] l].
  - cbn [map String.concat fst snd]. rewrite ST by reflexivity. reflexivity.
  - cbn [map]. rewrite concat_cons. cbn [fst snd]. rewrite append_assoc, ST by reflexivity. cbv zeta.
    cbn [append]. change (skip_ws (String "," ?s)) with (String "," s).
    cbn [skip_ws]. change (ws ",") with false. cbv iota.
    cbn [eat]. change (Ascii.eqb "," "}") with false. change (Ascii.eqb "," ",") with true. cbv iota.
    assert (G : starts good_first (String.concat "," (map member ((k', y) :: l)) ++ String "}" r) = true).
    { destruct l; reflexivity. }
    change (skip_ws _) with (skip_ws (String.concat "," (map member ((k', y) :: l)) ++ String "}" r)) at 1.
    rewrite skip_ws_id by (apply good_ws; exact G).
    change (String "}" r) with ("}" ++ r).
    rewrite IH by (auto; try congruence; cbn in *; lia). reflexivity.
Qed.

Theorem parse_write v : reads v.
Proof.
  induction v as [ |b|z|t|s|l IH|l IH] using json_ind'; intros V fuel r HF R; (destruct fuel as [|fuel]; [cbn in HF; lia|]).
  - reflexivity.
  - destruct b; reflexivity.
  - apply parse_int; auto.
  - apply parse_float; auto.
  - cbn [write merged]. unfold write_str. rewrite !append_assoc. unfold quote at 1. cbn [append parse].
    change (nat_of_ascii (ascii_of_nat 34) =? 34) with true. cbv iota. rewrite escape_scan. reflexivity.
  - destruct l as [|x l]; [reflexivity|].
    apply every_arr in V. cbn [write merged]. cbn [size] in HF. apply le_S_n in HF.
    rewrite !append_assoc. cbn [append parse].
    change (nat_of_ascii "[" =? 34) with false. change (Ascii.eqb "[" "[") with true. cbv iota.
    assert (G : starts good_first (String.concat "," (map w (x :: l)) ++ String "]" r) = true).
    { inv V. destruct l; cbn [map String.concat]; [|rewrite append_assoc]; apply first_good; auto. }
    rewrite skip_ws_id by (apply good_ws; exact G). rewrite good_close by exact G.
    change (String "]" r) with ("]" ++ r). rewrite items_read by (auto; congruence). reflexivity.
  - destruct l as [|[k x] l]; [reflexivity|].
    apply every_obj in V. destruct V as [_ V].
    assert (V' : Forall (fun kv => valid (snd kv)) ((k, x) :: l)) by (eapply Forall_impl; [|exact V]; cbn; intros ? [_ ?]; auto).
    cbn [write merged]. cbn [size] in HF. apply le_S_n in HF.
    rewrite !append_assoc. cbn [append parse].
    change (nat_of_ascii "{" =? 34) with false. change (Ascii.eqb "{" "[") with false. change (Ascii.eqb "{" "{") with true. cbv iota.
    assert (G : starts (fun c => nat_of_ascii c =? 34) (String.concat "," (map member ((k, x) :: l)) ++ String "}" r) = true).
    { destruct l; reflexivity. }
    rewrite skip_ws_id, eat_no.
    2-3: destruct l; reflexivity.
    change (String "}" r) with ("}" ++ r). rewrite members_read by (auto; congruence). reflexivity.
Qed.
