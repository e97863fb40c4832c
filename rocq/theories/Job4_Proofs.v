From Coq Require Import QArith.
From Verif Require Import Common Common_Proofs PyStr_Model PyStr_Proofs FileName_Model FileName_Proofs Json_Model Json_Spec Json_Proofs Json2_Proofs Json3_Proofs Json4_Proofs Json_Props.
From Verif Require Import FileStruct_Model FileStruct_Proofs JobBoss_Model JobBoss_Proofs Results_Model Results_Proofs Job_Model Job_Spec.
From Verif Require Import JobBoss2_Proofs Job_Proofs Job2_Proofs Job3_Proofs.
Local Open Scope nat_scope.
Local Open Scope string_scope.

(** ---- the text of the parameters ---- *)
Section Text.
  Variable repr : Q -> string.
  Hypothesis Hrepr : forall q, float_text (repr q).
  Definition entries (d : params) : list (string * json) := map (fun kv => (fst kv, as_json repr (snd kv))) d.

  Lemma entries_text d : serialize_params repr d = json_serialize (text_keys (entries d)).
  Proof. unfold serialize_params, text_keys, entries. rewrite map_map. reflexivity. Qed.
  Lemma serialize_total d : exists js, serialize_params repr d = Ok js.
  Proof. rewrite entries_text, serialize_text. eauto. Qed.
  Lemma every_value (st fl : string -> Prop) ks v : (forall q, fl (repr q)) -> match v with VStr s => st s | _ => True end -> every st fl ks (as_json repr v).
  Proof.
    intros F S. destruct v; cbn [as_json]; try exact I; auto.
    - apply F.
    - apply every_arr. apply Forall_forall. intros x X. apply in_map_iff in X. destruct X as (z & <- & _). exact I.
    - apply every_arr. apply Forall_forall. intros x X. apply in_map_iff in X. destruct X as (z & <- & _). apply F.
  Qed.
  Lemma every_entries (st fl : string -> Prop) (ks : list string -> Prop) d :
    (forall q, fl (repr q)) -> ks (map fst d) -> (forall k v, In (k, v) d -> st k /\ match v with VStr s => st s | _ => True end) ->
    every st fl ks (JObj (entries d)).
  Proof.
    intros F K A. apply every_obj. split.
    - unfold entries. rewrite map_map. exact K.
    - apply Forall_forall. intros [k x] X. unfold entries in X. apply in_map_iff in X. destruct X as ([k' v] & E & X). inv E. cbn. apply A in X.
      split; [tauto|]. apply every_value; tauto.
  Qed.
  Lemma entries_valid d : valid (JObj (entries d)).
  Proof. apply every_entries; auto. intros k [] _; auto. Qed.
  Lemma entries_distinct d : plain_dict d -> distinct (JObj (entries d)).
  Proof. intros [N _]. apply every_entries; auto. intros k [] _; auto. Qed.
  Lemma entries_without x d : plain_dict d -> In x [","%char; ";"%char; "'"%char] -> without x (JObj (entries d)).
  Proof.
    intros [_ F] X. apply every_entries; auto. intros k v E. apply F in E. unfold plain_text in E. 
    destruct X as [<-|[<-|[<-|[]]]]; destruct v; unfold lacks, chars in *; tauto.
  Qed.
  Lemma not_some st v : every (fun s => ~ st s) (fun _ => True) (fun _ => True) v -> ~ some st v.
  Proof.
    revert v. fix go 1. intros [| | | | |l|l]; cbn; auto.
    - revert l. fix go2 1. intros [|x l]; [auto|]. intros [A B] [C|C]; [exact (go x A C)|exact (go2 l B C)].
    - intros [_ K]. revert l K. fix go2 1. intros [|[k x] l]; [auto|]. intros (A & B & C) [E|[E|E]]; [auto|exact (go x B E)|exact (go2 l C E)].
  Qed.
  Lemma text_plain d js : plain_dict d -> serialize_params repr d = Ok js -> lacks "," js /\ lacks "'" js.
  Proof.
    intros K S. rewrite entries_text in S. destruct (C42_comma _ _ (entries_valid d) S) as (A & B & _).
    split; intros X; [apply A in X|apply B in X]; revert X; apply not_some; apply entries_without; cbn; auto.
  Qed.
  Lemma entries_in d k v : pget d k = Some v -> In (k, as_json repr v) (entries d).
  Proof.
    intros K. unfold entries. apply in_map_iff. exists (k, v). split; auto. revert K. unfold pget. induction d as [|[a b] d IH]; cbn; [discriminate|].
    destruct (String.eqb_spec k a); [intros E; inv E; auto|auto].
  Qed.
  Lemma entries_missing d k : pget d k = None -> ~ In k (map fst (entries d)).
  Proof.
    intros K. unfold entries. rewrite map_map. cbn [fst]. revert K. unfold pget. induction d as [|[a b] d IH]; cbn; [auto|].
    destruct (String.eqb_spec k a); [discriminate|]. intros K [E|E]; [congruence|]. apply IH; auto.
  Qed.
End Text.

(** ---- directories of a normal root ---- *)
Lemma normal_no_slash root : normal_root root -> ends_with_slash root = false.
Proof.
  intros (l & N & F & ->).
  destruct (exists_last N) as (l' & c & ->). apply Forall_app in F. destruct F as [_ F]. inversion F as [|? ? (A & B & C & D) _]; subst.
  assert (E : exists a, "/" ++ String.concat "/" (l' ++ [c])%list = a ++ c).
  { destruct l' as [|x l']; [exists "/"; reflexivity|]. exists ("/" ++ String.concat "/" (x :: l') ++ "/"). rewrite concat_app by discriminate.
    cbn [String.concat]. rewrite !append_assoc. reflexivity. }
  destruct E as [a ->].
  assert (G : exists c' x, c = c' ++ String x "" /\ x <> "/"%char).
  { clear -A D. induction c as [|y c IH]; [easy|]. apply lacks_cons in D. destruct D as [D1 D2]. destruct c as [|z c].
    - exists "", y. auto.
    - destruct IH as (c' & x & E & X); [discriminate|auto|]. exists (String y c'), x. rewrite E. auto. }
  destruct G as (c' & x & -> & X). rewrite <- append_assoc. unfold ends_with_slash. rewrite append_length. cbn [String.length]. rewrite Nat.add_comm. cbn [Nat.add].
  generalize (a ++ c'). intros s. apply Ascii.eqb_neq in X.
  induction s as [|y s IH]; cbn; [exact X|]. exact IH.
Qed.
Lemma normal_join root x : normal_root root -> String.prefix "/" x = false -> join root x = root ++ "/" ++ x.
Proof. intros K X. rewrite join_rel, normal_no_slash by auto. reflexivity. Qed.
Lemma rho_results_dir cwd root d r : normal_root root -> path_rho_results (build_fs cwd root d r) = rho_dir root d r ++ "results/".
Proof.
  intros K. cbn [build_fs path_rho_results]. rewrite normal_join by (auto; reflexivity).
  unfold template_rho_results, template_rho, template_vib, rho_dir. repeat rewrite append_assoc. reflexivity.
Qed.
Lemma result_join cwd root d r P T id : normal_root root ->
  join (path_rho_results (build_fs cwd root d r)) (pimc (dec P) (fmt2 T) (dec id)) = result_file root d r P T id.
Proof.
  intros K. rewrite rho_results_dir by auto.
  replace (rho_dir root d r ++ "results/") with ((rho_dir root d r ++ "results") ++ "/") by (rewrite append_assoc; reflexivity).
  rewrite join_slash by (cbn; discriminate). unfold result_file. repeat rewrite append_assoc. reflexivity.
Qed.
Lemma rho_dir_path root d r : path_text root -> path_text (rho_dir root d r).
Proof. intros K. unfold rho_dir. rewrite !path_app. repeat split; auto; try apply dec_path; apply path_lit; reflexivity. Qed.

(** ---- words ---- *)
Lemma replace_lacks x y s : lacks x s -> replace_char x y s = s.
Proof.
  intros K. apply lacks_iff in K. induction s as [|c s IH]; auto. cbn [all_chars] in K. apply andb_true_iff in K. destruct K as [C K].
  apply negb_true_iff in C. cbn [replace_char]. rewrite C, IH by auto. reflexivity.
Qed.
Lemma fields_path s : path_text s -> s <> "" -> fields s = [s].
Proof.
  intros K N. unfold fields. rewrite (replace_lacks (ascii_of_nat 9) _ s), (replace_lacks newline _ s) by (apply path_no; auto). rewrite split_lack by (apply path_no; auto).
  cbn. apply String.eqb_neq in N. rewrite N. reflexivity.
Qed.

(** ---- the script ---- *)
Section Run.
  Variables (H : string -> string) (cwd : string) (fval : string -> Q) (inv_kT : json -> res json) (divide : json -> json -> res json).
  Variable sampler : boxdata -> res (nat -> fl * fl * fl * fl).

  Lemma model_files_ok w root d r cv cr : normal_root root -> isdir w root = true ->
    texts w (root ++ "/data_set_" ++ dec d ++ "/parameters/coupled_model.json") = Some cv ->
    texts w (rho_dir root d r ++ "parameters/sampling_model.json") = Some cr ->
    model_files H cwd w (JStr root) (JInt d) (JInt r) =
      Ok (root ++ "/data_set_" ++ dec d ++ "/parameters/coupled_model.json", rho_dir root d r ++ "parameters/sampling_model.json", H cv, H cr).
  Proof.
    intros K D V R. unfold model_files. rewrite D. cbn [passert bind].
    assert (E1 : path_vib_model (build_fs cwd root d r) = root ++ "/data_set_" ++ dec d ++ "/parameters/coupled_model.json").
    { cbn [build_fs path_vib_model]. unfold template_vib_params, template_vib.
      replace (("data_set_" ++ dec d ++ "/") ++ "parameters/") with (("data_set_" ++ dec d ++ "/parameters") ++ "/") by (repeat rewrite append_assoc; reflexivity).
      rewrite join_join by (cbn; discriminate). rewrite normal_join by (auto; reflexivity). repeat rewrite append_assoc. reflexivity. }
    assert (E2 : path_rho_model (build_fs cwd root d r) = rho_dir root d r ++ "parameters/sampling_model.json").
    { cbn [build_fs path_rho_model]. unfold template_rho_params, template_rho, template_vib, rho_dir.
      replace ((("data_set_" ++ dec d ++ "/") ++ "rho_" ++ dec r ++ "/") ++ "parameters/") with (("data_set_" ++ dec d ++ "/rho_" ++ dec r ++ "/parameters") ++ "/") by (repeat rewrite append_assoc; reflexivity).
      rewrite join_join by (cbn; discriminate). rewrite normal_join by (auto; reflexivity). repeat rewrite append_assoc. reflexivity. }
    unfold generate_model_hashes. change (has_hashes (build_fs cwd root d r)) with false. cbn [andb]. unfold file_hash. rewrite E1, V.
    cbv zeta. change (path_rho_model (set_hash_vib (build_fs cwd root d r) (H cv))) with (path_rho_model (build_fs cwd root d r)). rewrite E2, R.
    cbn [FileStruct_Model.hash_vib FileStruct_Model.hash_rho set_hash_vib set_hash_rho].
    change (path_vib_model (set_hash_rho (set_hash_vib (build_fs cwd root d r) (H cv)) (H cr))) with (path_vib_model (build_fs cwd root d r)).
    change (path_rho_model (set_hash_rho (set_hash_vib (build_fs cwd root d r) (H cv)) (H cr))) with (path_rho_model (build_fs cwd root d r)).
    rewrite E1, E2. reflexivity.
  Qed.

  Lemma compute_values pm v bs nb n root P T job hv hr : 0 < n -> 0 < nb -> nb * bs <= n ->
    let vals := fun f : fl * fl * fl * fl -> fl => (map (fun i => f (v i)) (seq 0 (nb * bs)) ++ repeat NaN (n - nb * bs))%list in
    exists r', compute pm v bs nb root P T job (new_result pm n (Some hv) (Some hr)) =
      Ok (r', (join root (pimc (dec P) (fmt2 T) (dec (match job with Some j => j | None => 0%Z end))),
        {| z_hash_vib := Some hv; z_hash_rho := Some hr; z_samples := Some n; z_rho := Some (vals (fun x => fst (fst (fst x)))); z_g := Some (vals (fun x => snd (fst (fst x))));
           z_gp := if pm then Some (vals (fun x => snd (fst x))) else None; z_gm := if pm then Some (vals snd) else None |})).
  Proof.
    intros A B C vals. unfold compute.
    destruct (compute_ok nat unit (fun i => i) (fun _ => tt)
      (fun x => fst (fst (fst (v (snd x))))) (fun x => snd (fst (fst (v (snd x))))) (fun x => snd (fst (v (snd x)))) (fun x => snd (v (snd x)))
      pm bs nb n hv hr root P T job A B C) as (r' & path & z & E & V & S & S1 & S2 & S3).
    rewrite E. exists r'. do 2 f_equal. unfold save_results in S. destruct (is_0 (r_samples r')); [discriminate|].
    destruct (present _ && present _); [|discriminate]. inv S. cbn in S1, S2, S3. rewrite S1, S2. inv S3.
    unfold computed in V. cbn [fst snd] in V. destruct V as (V1 & V2 & V3). rewrite V1, V2. f_equal. destruct pm.
    - destruct V3 as [V3 V4]. rewrite V3, V4. reflexivity.
    - reflexivity.
  Qed.

  Variables (repr : Q -> string) (w : world) (root sroot : string) (d : params) (D R : Z) (wait script : string) (cpus cores mem : Z)
    (P : Z) (T : Q) (n nb bs : nat) (A N : Z) (be ta : json) (cv cr : string).
  Hypothesis J : job_setting repr fval inv_kT divide w root sroot d D R wait script cpus cores mem P T n nb bs A N be ta cv cr.

  Lemma object_ok dj js host name : plain_dict dj -> job_dict d dj host name P T -> serialize_params repr dj = Ok js ->
    from_json_string_pm H cwd inv_kT divide w js = Ok (job_object H repr d root D R P T n nb bs A N be ta cv cr).
  Proof.
    destruct J as [[J1 J1'] J2 J3 J4 [J5 J5'] J6 J7 J8 J9 J10 J11 J12 J13 [J14 J14'] [J15 J15'] [J16 J16'] J17 J18 J19].
    intros Kp (B1 & B2 & B3 & _ & _ & BK) S.
    assert (G : forall k v, pget d k = v -> ~ In k changed_keys -> pget dj k = v) by (intros k v E X; rewrite BK; auto).
    assert (GI : forall k v, pget d k = Some v -> ~ In k changed_keys -> In (k, as_json repr v) (entries repr dj)) by (intros; apply entries_in; auto).
    destruct J7 as [q1 q2 q3 q4 q5 q6 q7 q8 q9].
    pose proof (entries_valid repr J5 dj) as V. pose proof (entries_distinct repr dj Kp) as Ds.
    pose proof (entries_without repr ";" dj Kp ltac:(cbn; auto)) as W. rewrite entries_text in S.
    assert (ND : NoDup (map fst (entries repr dj))) by (apply every_obj in Ds; tauto).
    unfold from_json_string_pm.
    assert (Dec : decode js = Ok (JObj (entries repr dj))) by (destruct (C42_roundtrip (entries repr dj) V Ds W) as (t & E1 & E2); congruence).
    set (db0 := match pget d "delta_beta" with Some (VFloat q) => JFloat (repr q) | _ => JFloat "0.0" end).
    rewrite (C42_fields inv_kT divide (model_files H cwd w) (entries repr dj) js (JInt (Z.of_nat n)) (JInt (Z.of_nat nb)) (JInt A) (JInt P) (JInt N) (JFloat (repr T)) (JInt (Z.of_nat bs))
      (JInt D) (JInt R) (JStr root) be ta db0 (root ++ "/data_set_" ++ dec D ++ "/parameters/coupled_model.json") (rho_dir root D R ++ "parameters/sampling_model.json") (H cv) (H cr)); auto;
      try (match goal with |- In (?k, ?v) _ => first [apply (GI k (VInt _)) | apply (GI k (VStr _))]; [assumption|cbn; intuition discriminate] end);
      try (match goal with |- In (_, JInt P) _ => exact (entries_in repr dj "number_of_beads" (VInt P) B1) end);
      try (match goal with |- In (_, JFloat (repr T)) _ => exact (entries_in repr dj "temperature" (VFloat T) B3) end).
    - cbn [bind]. rewrite Dec. cbn [bind]. unfold job_object. do 2 f_equal.
      destruct (pget d "delta_beta") as [x|] eqn:E.
      + assert (E' : sub (JObj (entries repr dj)) "delta_beta" = Ok (as_json repr x)).
        { apply sub_in; auto. apply entries_in. apply G; auto. cbn. intuition discriminate. }
        cbn [Json_Model.delta_beta]. rewrite E'. destruct x; reflexivity.
      + rewrite sub_missing; [reflexivity|]. apply entries_missing, G; auto. cbn. intuition discriminate.
    - right. split; auto. apply entries_missing, G; auto. cbn. intuition discriminate.
    - right. split; auto. apply entries_missing, G; auto. cbn. intuition discriminate.
    - unfold db0. destruct (pget d "delta_beta") as [x|] eqn:E.
      + assert (E' : In ("delta_beta", as_json repr x) (entries repr dj)) by (apply GI; auto; cbn; intuition discriminate).
        assert (U : forall s, In ("delta_beta", JFloat s) (entries repr dj) -> JFloat s = as_json repr x).
        { intros s X. pose proof (sub_in _ _ _ ND X) as U1. pose proof (sub_in _ _ _ ND E') as U2. congruence. }
        destruct x; cbn [as_json] in *; try (right; split; [intros s9 X; apply U in X; discriminate|reflexivity]). left. eexists. split; [reflexivity|]. exact E'.
      + right. split; auto. intros s X. apply (entries_missing repr dj "delta_beta"); [apply G; auto; cbn; intuition discriminate|].
        apply in_map_iff. eexists. split; [|exact X]. reflexivity.
    - apply model_files_ok; auto.
  Qed.

  Lemma script_ok v dj js host name prog id : plain_dict dj -> job_dict d dj host name P T -> serialize_params repr dj = Ok js ->
    sampler (job_object H repr d root D R P T n nb bs A N be ta cv cr) = Ok v ->
    run_script H cwd fval inv_kT divide sampler w [prog; js; rho_dir sroot D R; dec id] = Ok (result_file sroot D R P T id, job_results H v n nb bs cv cr).
  Proof.
    intros Kp Kd S Kv. pose proof (object_ok dj js host name Kp Kd S) as O.
    destruct J as [[J1 J1'] J2 J3 J4 [J5 J5'] J6 J7 J8 J9 J10 J11 J12 J13 [J14 J14'] [J15 J15'] [J16 J16'] J17 J18 (J19 & J20 & J21)].
    assert (NS : normal_root sroot) by (eapply scratched_normal; eauto).
    unfold run_script. cbn [length Nat.eqb passert bind]. unfold item. cbn [nth_error bind]. rewrite O. cbn [bind]. rewrite Kv. cbn [bind].
    rewrite up_two by auto. unfold job_object. cbn [Json_Model.id_data Json_Model.id_rho json_int bind]. rewrite J16'. cbn [passert bind].
    cbn [Json_Model.samples Json_Model.block_size Json_Model.blocks Json_Model.beads Json_Model.temperature Json_Model.hash_vib Json_Model.hash_rho json_nat json_int json_number].
    assert (Z1 : forall m, (Z.of_nat m <? 0)%Z = false) by (intros; apply Z.ltb_ge; lia). rewrite !Z1. cbn [bind]. rewrite !Nat2Z.id, J5', py_int_dec. cbv zeta.
    destruct (compute_values true v bs nb n (path_rho_results (build_fs cwd sroot D R)) P T (Some id) (H cv) (H cr) J19 J20 J21) as (r' & E).
    rewrite E. cbn [bind snd]. rewrite result_join by auto. reflexivity.
  Qed.
End Run.

(** ---- moving ---- *)
Lemma dir_base_spec a b : lacks "/" b -> dir_base (a ++ String "/" b) = (a ++ "/", b).
Proof.
  intros K. assert (B : dir_base b = ("", b)).
  { apply lacks_iff in K. induction b as [|c b IH]; auto. cbn [all_chars] in K. apply andb_true_iff in K. destruct K as [C K]. apply negb_true_iff in C.
    cbn [dir_base]. rewrite IH by auto. cbn. rewrite C. reflexivity. }
  induction a as [|c a IH]; cbn [String.append dir_base].
  - rewrite B. reflexivity.
  - rewrite IH. destruct a; reflexivity.
Qed.
Lemma last_slash_unique a b x y : lacks "/" x -> lacks "/" y -> a ++ String "/" x = b ++ String "/" y -> a = b /\ x = y.
Proof.
  intros X Y E. pose proof (dir_base_spec a x X) as A. pose proof (dir_base_spec b y Y) as B. rewrite E in A. rewrite A in B. inv B. split; auto.
  eapply append_inj_r; eauto.
Qed.
