From Verif Require Import Common Common_Proofs PyStr_Model PyStr_Proofs FileName_Model FileName_Proofs FileStruct_Model.
Local Open Scope string_scope.
Local Open Scope nat_scope.

(** a non-empty relative path *)
Definition rel (b : string) : Prop := match b with String c _ => c <> "/"%char | EmptyString => False end.

Lemma rel_prefix b : rel b -> String.prefix "/" b = false.
Proof. destruct b as [|c b]; cbn [rel String.prefix]; [tauto|]. intros H. destruct (ascii_dec "/" c) as [E|]; auto. exfalso. apply H. symmetry. exact E. Qed.

Lemma rel_app b s : rel b -> rel (b ++ s).
Proof. destruct b; simpl; tauto. Qed.

Lemma join_ext a b : rel b -> exists s, join a b = (a ++ s)%string.
Proof. intros H. rewrite join_rel by auto using rel_prefix. eauto. Qed.

Lemma join_app a b s : rel b -> (join a b ++ s)%string = join a (b ++ s).
Proof.
  intros H. rewrite !join_rel by auto using rel_prefix, rel_app. rewrite !append_assoc. auto.
Qed.

Lemma join_rel_inj a b c : rel b -> rel c -> join a b = join a c -> b = c.
Proof. intros Hb Hc. apply join_inj; auto using rel_prefix. Qed.

(** ends with a slash *)
Lemma ends_slash a : ends_with_slash (a ++ "/") = true.
Proof.
  unfold ends_with_slash. rewrite append_length. simpl. rewrite Nat.add_comm. simpl.
  induction a as [|c a IH]; simpl; auto.
Qed.

Lemma join_slash a b : rel b -> join (a ++ "/") b = (a ++ "/" ++ b)%string.
Proof. intros H. rewrite join_rel, ends_slash by auto using rel_prefix. rewrite append_assoc. auto. Qed.

Lemma rel_vib d s : rel (template_vib d ++ s).
Proof. simpl. discriminate. Qed.
Lemma rel_rho d r s : rel (template_rho d r ++ s).
Proof. simpl. discriminate. Qed.


Lemma template_vib_inj d d' s s' : (template_vib d ++ s)%string = (template_vib d' ++ s')%string -> d = d' /\ s = s'.
Proof.
  unfold template_vib. rewrite !append_assoc. intros H. apply append_inj_l in H.
  apply (split_class is_int_char) in H; auto using dec_int_chars. destruct H as (H & _ & ->). apply dec_inj in H. auto.
Qed.

Lemma template_rho_inj d d' r r' s s' :
  (template_rho d r ++ s)%string = (template_rho d' r' ++ s')%string -> d = d' /\ r = r' /\ s = s'.
Proof.
  unfold template_rho. rewrite !append_assoc. intros H. apply template_vib_inj in H. destruct H as [-> H].
  apply append_inj_l in H. apply (split_class is_int_char) in H; auto using dec_int_chars.
  destruct H as (H & _ & ->). apply dec_inj in H. auto.
Qed.

(** all attributes below <root>/data_set_d/rho_r/, with the part after it *)
Definition rho_parts : list string :=
  ["parameters/"; "results/"; "execution_output/"; "plots/"; "parameters/sampling_model.json"; "parameters/analytic_results.json";
   "results/" ++ tpl_pimc; "results/" ++ tpl_jackknife; "parameters/" ++ tpl_sos].
Definition rho_attrs (f : fstruct) : list string :=
  [path_rho_params f; path_rho_results f; path_rho_output f; path_rho_plots f; path_rho_model f; path_analytic_rho f;
   t_pimc f; t_jackknife f; t_sos_rho f].
(** all attributes below <root>/data_set_d/ that do not depend on rho *)
Definition vib_parts : list string :=
  ["parameters/"; "results/"; "execution_output/"; "plots/"; "parameters/coupled_model.json"; "parameters/harmonic_model.json";
   "parameters/iterative_model.json"; "parameters/iterative_matrix.txt"; "parameters/analytic_results.json";
   "parameters/original_analytic_results.json"; "parameters/original_coupled_model.json"; "parameters/orthogonal_matrix.npy";
   "parameters/" ++ tpl_sos; "parameters/" ++ tpl_trotter].
Definition vib_attrs (f : fstruct) : list string :=
  [path_vib_params f; path_vib_results f; path_vib_output f; path_vib_plots f; path_vib_model f; path_har_model f;
   path_iter_model f; path_iter_mat f; path_analytic_vib f;
   path_analytic_orig f; path_orig_model f; path_ortho_mat f;
   t_sos_vib f; t_trotter_vib f].

Lemma join_join root t x : rel (t ++ "/") -> rel x -> join (join root (t ++ "/")) x = join root (t ++ "/" ++ x).
Proof.
  intros Ht Hx. rewrite (join_rel root (t ++ "/")) by auto using rel_prefix.
  rewrite <- !append_assoc. rewrite join_slash by auto. rewrite join_rel.
  - rewrite !append_assoc. auto.
  - apply rel_prefix. destruct t; simpl in *; auto.
Qed.

Lemma template_rho_slash d r : template_rho d r = ((template_vib d ++ "rho_" ++ dec r) ++ "/")%string.
Proof. unfold template_rho. rewrite !append_assoc. auto. Qed.
Lemma template_vib_slash d : template_vib d = (("data_set_" ++ dec d) ++ "/")%string.
Proof. unfold template_vib. rewrite !append_assoc. auto. Qed.

(** a template directory with a sub directory *)
Lemma join_sub root t x y :
  rel (t ++ x ++ "/") -> rel y -> join (join root (t ++ x ++ "/")) y = join root (t ++ (x ++ "/" ++ y)).
Proof.
  intros H Hy. rewrite <- (append_assoc t x "/") in *. rewrite join_join by auto. rewrite !append_assoc. auto.
Qed.

Lemma rho_attrs_ok cwd root d r :
  rho_attrs (build_fs cwd root d r) = map (fun x => join root (template_rho d r ++ x)) rho_parts.
Proof.
  unfold rho_attrs, build_fs, rho_parts, template_rho_params, template_rho_results, template_rho_output, template_rho_plots.
  cbn [map path_rho_params path_rho_results path_rho_output path_rho_plots path_rho_model path_analytic_rho t_pimc t_jackknife t_sos_rho].
  rewrite !join_app by apply rel_rho. rewrite !append_assoc.
  change ("parameters/") with ("parameters" ++ "/")%string.
  rewrite !join_sub by (try exact (rel_rho _ _ _); discriminate).
  repeat (f_equal; [reflexivity|]). auto.
Qed.

Lemma vib_attrs_ok cwd root d r :
  vib_attrs (build_fs cwd root d r) = map (fun x => join root (template_vib d ++ x)) vib_parts.
Proof.
  unfold vib_attrs, build_fs, vib_parts, template_vib_params, template_vib_results, template_vib_output, template_vib_plots.
  cbn [map path_vib_params path_vib_results path_vib_output path_vib_plots path_vib_model path_har_model path_iter_model path_iter_mat
    path_analytic_vib path_analytic_orig path_orig_model path_ortho_mat t_sos_vib t_trotter_vib].
  rewrite !join_app by apply rel_vib. rewrite !append_assoc.
  change ("parameters/") with ("parameters" ++ "/")%string.
  rewrite !join_sub by (try exact (rel_vib _ _); discriminate).
  repeat (f_equal; [reflexivity|]). auto.
Qed.

(** no path of a rho directory, and no file below it, coincides with one of another (d, r) *)
Theorem rho_disjoint cwd cwd' root d r d' r' p p' s s' :
  In p (rho_attrs (build_fs cwd root d r)) -> In p' (rho_attrs (build_fs cwd' root d' r')) ->
  (p ++ s)%string = (p' ++ s')%string -> d = d' /\ r = r'.
Proof.
  rewrite !rho_attrs_ok. intros H H' E. apply in_map_iff in H, H'. destruct H as (x & <- & _), H' as (y & <- & _).
  rewrite !join_app in E by apply rel_rho. rewrite !append_assoc in E. apply join_rel_inj in E; try exact (rel_rho _ _ _).
  apply template_rho_inj in E. tauto.
Qed.

Theorem vib_disjoint cwd cwd' root d r d' r' p p' s s' :
  In p (vib_attrs (build_fs cwd root d r)) -> In p' (vib_attrs (build_fs cwd' root d' r')) ->
  (p ++ s)%string = (p' ++ s')%string -> d = d'.
Proof.
  rewrite !vib_attrs_ok. intros H H' E. apply in_map_iff in H, H'. destruct H as (x & <- & _), H' as (y & <- & _).
  rewrite !join_app in E by apply rel_vib. rewrite !append_assoc in E. apply join_rel_inj in E; try exact (rel_vib _ _).
  apply template_vib_inj in E. tauto.
Qed.

Theorem vib_rho_disjoint cwd cwd' root d r d' r' p p' s s' :
  In p (vib_attrs (build_fs cwd root d r)) -> In p' (rho_attrs (build_fs cwd' root d' r')) ->
  (p ++ s)%string <> (p' ++ s')%string.
Proof.
  rewrite vib_attrs_ok, rho_attrs_ok. intros H H' E. apply in_map_iff in H, H'. destruct H as (x & <- & Hx), H' as (y & <- & _).
  rewrite (join_app _ _ s), (join_app _ _ s') in E by (simpl; discriminate). rewrite !append_assoc in E.
  apply join_rel_inj in E; try (simpl; discriminate).
  unfold template_rho in E. rewrite append_assoc in E. apply template_vib_inj in E. destruct E as [_ E].
  unfold vib_parts in Hx. simpl in Hx.
  repeat match goal with H : _ \/ _ |- _ => destruct H as [<-|H]; [discriminate|] end. easy.
Qed.

(** the two directories taken from the absolute root *)
Theorem rho_dir_disjoint cwd root d r d' r' s s' :
  (path_rho (build_fs cwd root d r) ++ s)%string = (path_rho (build_fs cwd root d' r') ++ s')%string -> d = d' /\ r = r'.
Proof.
  cbn [path_rho build_fs]. intros E. rewrite <- (append_nil_r (template_rho d r)), <- (append_nil_r (template_rho d' r')) in E.
  rewrite !join_app in E by apply rel_rho. rewrite !append_assoc in E. apply join_rel_inj in E; try exact (rel_rho _ _ _).
  apply template_rho_inj in E. tauto.
Qed.

Theorem es_dir_disjoint cwd root d r d' r' s s' :
  (path_es (build_fs cwd root d r) ++ s)%string = (path_es (build_fs cwd root d' r') ++ s')%string -> d = d'.
Proof.
  cbn [path_es build_fs]. intros E. rewrite !template_vib_slash in E.
  rewrite !join_join in E by (simpl; discriminate).
  rewrite !join_app in E by (simpl; discriminate). apply join_rel_inj in E; try (simpl; discriminate).
  rewrite <- !append_assoc in E. rewrite (append_assoc "data_set_" (dec d)) in E. rewrite (append_assoc "data_set_" (dec d')) in E.
  pose proof (template_vib_inj d d' ("electronic_structure" ++ s) ("electronic_structure" ++ s')) as T.
  unfold template_vib in T. rewrite !append_assoc in *. apply T in E. tauto.
Qed.

(** the file attributes of one object are all different *)
Definition file_attrs (f : fstruct) : list string :=
  [path_vib_model f; path_har_model f; path_iter_model f; path_iter_mat f; path_analytic_vib f; path_analytic_orig f;
   path_orig_model f; path_ortho_mat f; path_rho_model f; path_analytic_rho f].

Theorem files_distinct cwd root d r : NoDup (file_attrs (build_fs cwd root d r)).
Proof.
  pose proof (vib_attrs_ok cwd root d r) as HV. pose proof (rho_attrs_ok cwd root d r) as HR.
  assert (NoDup ([path_vib_model (build_fs cwd root d r); path_har_model (build_fs cwd root d r);
    path_iter_model (build_fs cwd root d r); path_iter_mat (build_fs cwd root d r); path_analytic_vib (build_fs cwd root d r);
    path_analytic_orig (build_fs cwd root d r); path_orig_model (build_fs cwd root d r); path_ortho_mat (build_fs cwd root d r)]
    ++ [path_rho_model (build_fs cwd root d r); path_analytic_rho (build_fs cwd root d r)])) as H; auto.
  assert (ND : forall A (l1 l2 : list A), NoDup l1 -> NoDup l2 -> (forall x, In x l1 -> ~ In x l2) -> NoDup (l1 ++ l2)).
  { clear. induction l1; simpl; intros l2 H1 H2 H; auto. inv H1. constructor.
    - rewrite in_app_iff. intros [|]; auto. eapply H; eauto.
    - apply IHl1; auto. }
  unfold vib_attrs, vib_parts in HV. unfold rho_attrs, rho_parts in HR. cbn [map] in HV, HR.
  pose proof (fun i => f_equal (fun l => nth i l "") HV) as HV'. pose proof (fun i => f_equal (fun l => nth i l "") HR) as HR'.
  pose proof (HV' 4) as V1. pose proof (HV' 5) as V2. pose proof (HV' 6) as V3. pose proof (HV' 7) as V4.
  pose proof (HV' 8) as V5. pose proof (HV' 9) as V6. pose proof (HV' 10) as V7. pose proof (HV' 11) as V8.
  pose proof (HR' 4) as R1. pose proof (HR' 5) as R2. cbn [nth] in V1, V2, V3, V4, V5, V6, V7, V8, R1, R2.
  apply ND.
  - rewrite V1, V2, V3, V4, V5, V6, V7, V8.
    repeat (constructor; [cbn [In]; intros HH;
      repeat match goal with H : _ \/ _ |- _ => destruct H as [H|H];
        [apply join_rel_inj in H; try exact (rel_vib _ _); apply append_inj_l in H; discriminate|] end; easy|]).
    constructor.
  - rewrite R1, R2. constructor; [|constructor; [easy|constructor]].
    cbn [In]. intros [H|[]]. apply join_rel_inj in H; try exact (rel_rho _ _ _). apply append_inj_l in H. discriminate.
  - intros x Hx Hy. apply (vib_rho_disjoint cwd cwd root d r d r x x "" ""); auto.
    + unfold vib_attrs. simpl in *. tauto.
    + unfold rho_attrs. simpl in *. tauto.
Qed.

Theorem inside_root cwd root d r p :
  In p (rho_attrs (build_fs cwd root d r) ++ vib_attrs (build_fs cwd root d r)) -> String.prefix root p = true.
Proof.
  rewrite rho_attrs_ok, vib_attrs_ok, in_app_iff, !in_map_iff. intros [(x & <- & _)|(x & <- & _)].
  - destruct (join_ext root (template_rho d r ++ x) (rel_rho d r x)) as [s ->]. apply prefix_self.
  - destruct (join_ext root (template_vib d ++ x) (rel_vib d x)) as [s ->]. apply prefix_self.
Qed.

Theorem inside_abs_root cwd root d r p :
  In p [path_data (build_fs cwd root d r); path_rho (build_fs cwd root d r); path_es (build_fs cwd root d r)] ->
  String.prefix (path_root (build_fs cwd root d r)) p = true.
Proof.
  cbn [In path_data path_rho path_es path_root build_fs]. intros [<-|[<-|[<-|[]]]].
  - destruct (join_ext (abspath cwd root) (template_vib d)) as [s ->]; [simpl; discriminate|]. apply prefix_self.
  - destruct (join_ext (abspath cwd root) (template_rho d r)) as [s ->]; [simpl; discriminate|]. apply prefix_self.
  - rewrite template_vib_slash, join_join by (simpl; discriminate).
    destruct (join_ext (abspath cwd root) (("data_set_" ++ dec d) ++ "/" ++ "electronic_structure")) as [s ->]; [simpl; discriminate|].
    apply prefix_self.
Qed.

(** ---- change_rho ---- *)
Theorem change_rho_fresh cwd root d r0 r ds cwd' :
  rho_attrs (fst (change_rho ds (build_fs cwd root d r0) r)) = rho_attrs (build_fs cwd' (abspath cwd root) d r).
Proof. reflexivity. Qed.

(** the attributes not below rho_r are kept *)
Definition other_attrs (f : fstruct) : list string :=
  path_root f :: path_data f :: path_rho f :: path_es f :: vib_attrs f.

Theorem change_rho_others ds f r :
  other_attrs (fst (change_rho ds f r)) = other_attrs f /\ id_data (fst (change_rho ds f r)) = id_data f /\
  id_rho (fst (change_rho ds f r)) = id_rho f /\ hash_vib (fst (change_rho ds f r)) = hash_vib f /\
  hash_rho (fst (change_rho ds f r)) = hash_rho f.
Proof. repeat split. Qed.

(** the last change wins *)
Theorem change_rho_last ds ds' f r r' : fst (change_rho ds' (fst (change_rho ds f r)) r') = fst (change_rho ds f r').
Proof. reflexivity. Qed.

Theorem change_rho_path_rho cwd root d r0 r ds :
  r <> r0 ->
  path_rho (fst (change_rho ds (build_fs cwd root d r0) r)) <> path_rho (build_fs cwd root d r) /\
  id_rho (fst (change_rho ds (build_fs cwd root d r0) r)) <> id_rho (build_fs cwd root d r).
Proof.
  intros Hr. split; [|simpl; congruence]. intros E. apply Hr.
  destruct (rho_dir_disjoint cwd root d r0 d r "" "") as [_ ->]; auto. rewrite !append_nil_r. exact E.
Qed.

(** ---- normpath, abspath ---- *)
Definition no_slash (s : string) : Prop := all_chars (fun c => negb (Ascii.eqb c "/")) s = true.

Lemma split_slash_pieces s : Forall no_slash (split "/" s).
Proof.
  unfold split. induction s as [|c s IH]; cbn [split_go]; [repeat constructor|].
  cbn [String.length Nat.sub].
  destruct (String.prefix "/" (String c s)) eqn:E; [constructor; auto; reflexivity|].
  assert (negb (Ascii.eqb c "/") = true) as Hc.
  { cbn [String.prefix] in E. destruct (ascii_dec "/" c) as [|Hn]; [destruct s; discriminate|].
    apply negb_true_iff, Ascii.eqb_neq. intros ->. apply Hn. auto. }
  destruct (split_go "/" 0 s) as [|h t].
  - constructor; auto. unfold no_slash. cbn [all_chars]. rewrite Hc. auto.
  - inv IH. constructor; auto. unfold no_slash in *. cbn [all_chars]. rewrite Hc. auto.
Qed.

Lemma split_concat l : Forall no_slash l -> l <> [] -> split "/" (String.concat "/" l) = l.
Proof.
  intros H. induction H as [|a l Ha H IH]; [congruence|]. intros _.
  destruct l as [|b l].
  - simpl. apply split_none; [discriminate|]. apply no_start_char. auto.
  - change (String.concat "/" (a :: b :: l)) with (a ++ "/" ++ String.concat "/" (b :: l))%string. rewrite split_first; [|discriminate|apply no_start_char; auto].
    rewrite IH by discriminate. auto.
Qed.

Fixpoint ok_rev (n : nat) (l : list string) : Prop :=
  match l with
  | [] => True
  | c :: l' => c <> "" /\ c <> "." /\ (c = ".." -> n = 0 /\ Forall (eq "..") l') /\ ok_rev n l'
  end.

Lemma norm_step_ok n acc c : ok_rev n acc -> ok_rev n (norm_step n acc c).
Proof.
  intros H. unfold norm_step.
  destruct (String.eqb_spec c ""); auto. destruct (String.eqb_spec c "."); auto. simpl.
  destruct (String.eqb_spec c ".."); simpl.
  - subst. destruct acc as [|a acc].
    + destruct n; simpl; auto; repeat split; auto; discriminate.
    + rewrite andb_false_r. simpl. simpl in H. destruct H as (H1 & H2 & H3 & H4).
      destruct (String.eqb_spec a ".."); auto. simpl. subst. destruct (H3 eq_refl) as [-> HF].
      repeat split; auto; discriminate.
  - simpl. repeat split; auto; try (intros ->; congruence); congruence.
Qed.

Lemma norm_fold_ok n l acc : ok_rev n acc -> ok_rev n (fold_left (norm_step n) l acc).
Proof. revert acc. induction l; simpl; auto using norm_step_ok. Qed.

Lemma norm_step_id n acc c : ok_rev n (c :: acc) -> norm_step n acc c = c :: acc.
Proof.
  simpl. intros (H1 & H2 & H3 & H4). unfold norm_step.
  destruct (String.eqb_spec c ""); [easy|]. destruct (String.eqb_spec c "."); [easy|]. simpl.
  destruct (String.eqb_spec c ".."); simpl; auto. destruct (H3 e) as [-> HF]. subst. simpl.
  destruct HF as [|? ? <- HF]; auto.
Qed.

Lemma norm_fold_id n l : ok_rev n (rev l) -> fold_left (norm_step n) l [] = rev l.
Proof.
  rewrite <- fold_left_rev_right. generalize (rev l). clear l. intros l. induction l as [|c l IH]; simpl; auto.
  intros H. assert (ok_rev n l) as Hl by (simpl in H; tauto). rewrite IH by auto. apply norm_step_id. auto.
Qed.

Lemma norm_step_slash n acc c : no_slash c -> Forall no_slash acc -> Forall no_slash (norm_step n acc c).
Proof.
  intros Hc H. unfold norm_step. destruct (String.eqb c "" || String.eqb c "."); auto.
  match goal with |- context [if ?b then _ else _] => destruct b end; auto. destruct H; auto.
Qed.

Lemma norm_fold_slash n l acc : Forall no_slash l -> Forall no_slash acc -> Forall no_slash (fold_left (norm_step n) l acc).
Proof. intros Hl. revert acc. induction Hl; simpl; auto using norm_step_slash. Qed.

Lemma initial_slashes_le p : initial_slashes p <= 2.
Proof. unfold initial_slashes. destruct (String.prefix "/" p); auto. destruct (_ && _); auto. Qed.

(** leading slashes of a normalised path *)
Lemma initial_slashes_norm n l :
  n <= 2 -> Forall no_slash l -> Forall (fun c => c <> "") l ->
  initial_slashes (repeat_slash n ++ String.concat "/" l) = n.
Proof.
  intros Hn Hs He.
  assert (match String.concat "/" l with String c _ => c <> "/"%char | EmptyString => True end) as Hc.
  { destruct l as [|a l]; simpl; auto. inv Hs. inv He. destruct a as [|c a]; [easy|].
    unfold no_slash in H1. simpl in H1. apply andb_true_iff in H1. destruct H1 as [H1 _].
    apply negb_true_iff, Ascii.eqb_neq in H1. destruct l; simpl; auto. }
  unfold initial_slashes. destruct (String.concat "/" l) as [|c t].
  - destruct n as [|[|[|]]]; try lia; reflexivity.
  - destruct n as [|[|[|]]]; try lia; cbn [repeat_slash String.append String.prefix];
      repeat match goal with |- context [ascii_dec ?a ?b] => destruct (ascii_dec a b); try congruence end; auto.
Qed.

Lemma split_slashes n s : split "/" (repeat_slash n ++ s) = (repeat "" n ++ split "/" s)%list.
Proof. induction n; cbn [repeat_slash repeat app]; auto. rewrite <- IHn, append_assoc.
  apply (split_first "/" "" (repeat_slash n ++ s)); [discriminate|constructor]. Qed.

Lemma fold_norm_empty n k acc : fold_left (norm_step n) (repeat "" k) acc = acc.
Proof. induction k; simpl; auto. Qed.

Lemma ok_rev_nonempty n l : ok_rev n l -> Forall (fun c => c <> "") l.
Proof. induction l; simpl; intros H; constructor; tauto. Qed.

Theorem normpath_idempotent p : normpath (normpath p) = normpath p.
Proof.
  unfold normpath at 2 3. destruct (String.eqb_spec p "") as [|Hp]; [reflexivity|].
  set (n := initial_slashes p). set (l := fold_left (norm_step n) (split "/" p) []).
  assert (ok_rev n l) as Hok by (apply norm_fold_ok; simpl; auto).
  assert (Forall no_slash l) as Hsl by (apply norm_fold_slash; auto using split_slash_pieces).
  set (q := (repeat_slash n ++ String.concat "/" (rev l))%string).
  destruct (String.eqb_spec q ""); [reflexivity|]. cbn zeta.
  assert (Forall no_slash (rev l)) as Hsr by (apply Forall_rev; auto).
  assert (Forall (fun c => c <> "") (rev l)) as Her by (apply Forall_rev; eapply ok_rev_nonempty; eauto).
  assert (initial_slashes q = n) as Hn by (apply initial_slashes_norm; auto; apply initial_slashes_le).
  unfold normpath. destruct (String.eqb_spec q ""); [easy|]. rewrite Hn.
  assert (fold_left (norm_step n) (split "/" q) [] = l) as ->.
  { unfold q. rewrite split_slashes, fold_left_app, fold_norm_empty. destruct (rev l) as [|a r] eqn:E.
    - assert (l = []) as -> by (rewrite <- (rev_involutive l), E; auto). reflexivity.
    - rewrite <- E in *. rewrite split_concat by (auto; rewrite E; discriminate).
      rewrite norm_fold_id by (rewrite rev_involutive; auto). apply rev_involutive. }
  fold q. destruct (String.eqb_spec q ""); [easy|]. auto.
Qed.

Lemma prefix_slash p : String.prefix "/" p = true <-> exists t, p = String "/" t.
Proof. rewrite prefix_true. simpl. tauto. Qed.

Lemma normpath_absolute p : String.prefix "/" p = true -> String.prefix "/" (normpath p) = true.
Proof.
  intros H. unfold normpath. destruct (String.eqb_spec p "") as [|Hp]; [subst; discriminate|].
  assert (exists n, initial_slashes p = S n) as [n ->].
  { unfold initial_slashes. rewrite H. destruct (_ && _); eauto. }
  cbn [repeat_slash String.append String.eqb]. apply prefix_slash. eexists. reflexivity.
Qed.

Theorem abspath_absolute cwd p : String.prefix "/" cwd = true -> String.prefix "/" (abspath cwd p) = true.
Proof.
  intros H. unfold abspath. destruct (String.prefix "/" p) eqn:E; apply normpath_absolute; auto.
  rewrite join_rel by auto. apply prefix_app. auto.
Qed.

Theorem abspath_idempotent cwd cwd' p : String.prefix "/" cwd = true -> abspath cwd' (abspath cwd p) = abspath cwd p.
Proof.
  intros H. pose proof (abspath_absolute cwd p H) as HA. unfold abspath at 1. rewrite HA. unfold abspath. apply normpath_idempotent.
Qed.

(** a relative root: change_rho replaces the relative paths by absolute ones *)
Theorem change_rho_relative cwd root d r0 r ds :
  String.prefix "/" cwd = true -> rel root ->
  path_rho_params (fst (change_rho ds (build_fs cwd root d r0) r)) <> path_rho_params (build_fs cwd root d r).
Proof.
  intros Hc Hr E. cbn [path_rho_params fst change_rho set_rho build_fs path_root id_data] in E.
  assert (String.prefix "/" (join (abspath cwd root) (template_rho_params d r)) = true) as H1.
  { destruct (join_ext (abspath cwd root) (template_rho_params d r)) as [s ->]; [simpl; discriminate|].
    apply prefix_app, abspath_absolute; auto. }
  rewrite E in H1. destruct (join_ext root (template_rho_params d r)) as [s Hs]; [simpl; discriminate|].
  rewrite Hs in H1. apply (rel_app _ s) in Hr. apply rel_prefix in Hr. congruence.
Qed.

(** ---- directories ---- *)
Definition rho_dirs (f : fstruct) : list string := [path_rho_params f; path_rho_results f; path_rho_output f; path_rho_plots f].

Lemma makedirs_all l ds : fold_left makedirs l ds = (ds ++ l)%list.
Proof. revert ds. induction l; simpl; intros ds; [rewrite app_nil_r; auto|]. rewrite IHl. unfold makedirs. rewrite <- app_assoc. auto. Qed.

Lemma isdir_In ds p : In p ds -> isdir ds p = true.
Proof.
  intros H. unfold isdir. apply existsb_exists. exists p. split; auto.
  rewrite <- (append_nil_r p) at 2. apply prefix_self.
Qed.

Lemma isdir_app ds ds' p : isdir ds p = true -> isdir (ds ++ ds')%list p = true.
Proof. unfold isdir. rewrite existsb_app. intros ->. auto. Qed.

Definition change_rho_all (ds : dirs) (f : fstruct) (l : list Z) : fstruct * dirs :=
  fold_left (fun s r => change_rho (snd s) (fst s) r) l (f, ds).

Theorem change_rho_dirs_exist cwd root d r0 f ds ds0 l r :
  String.prefix "/" cwd = true -> abspath cwd root = root ->
  new_fs cwd true ds0 root d r0 false = Ok (f, ds) ->
  let s := change_rho_all ds f l in
  let s' := change_rho (snd s) (fst s) r in
  Forall (fun p => isdir (snd s') p = true) (rho_dirs (fst s')).
Proof.
  intros Hc Ha H. injection H as <- <-.
  assert (forall l, let s := change_rho_all (make_directories ds0 (build_fs cwd root d r0)) (build_fs cwd root d r0) l in
     id_rho (fst s) = r0 /\ id_data (fst s) = d /\ path_root (fst s) = root /\
     Forall (fun p => isdir (snd s) p = true) (rho_dirs (build_fs cwd root d r0))) as HI.
  { clear l. intros l. unfold change_rho_all. rewrite <- (fold_left_rev_right (fun r s => change_rho (snd s) (fst s) r)).
    induction (rev l) as [|x l' IH].
    - cbn [fold_right fst snd]. split; [reflexivity|split; [reflexivity|split; [exact Ha|]]].
      unfold make_directories. rewrite makedirs_all. unfold rho_dirs.
      repeat constructor; apply isdir_In, in_or_app; right; unfold dir_values; simpl; tauto.
    - cbn [fold_right]. destruct IH as (I1 & I2 & I3 & I4). unfold change_rho. cbn [fst snd].
      split; [exact I1|split; [exact I2|split; [exact I3|]]].
      eapply Forall_impl; [|exact I4]. intros p Hp. unfold make_rho_directories, make_directories.
      match goal with |- context [if ?b then _ else _] => destruct b end; rewrite makedirs_all; apply isdir_app; auto. }
  destruct (HI l) as (I1 & I2 & I3 & I4).
  set (s := change_rho_all _ _ _) in *. cbv zeta.
  unfold change_rho. cbn [fst snd]. unfold make_rho_directories. rewrite I1, I2, I3.
  unfold rho_dirs in *. cbn [set_rho path_rho_params path_rho_results path_rho_output path_rho_plots]. rewrite I2, I3.
  cbn [build_fs path_rho_params path_rho_results path_rho_output path_rho_plots] in I4.
  destruct (Z.eqb_spec r r0) as [->|Hr].
  - eapply Forall_impl; [|exact I4]. intros p Hp. unfold make_directories. rewrite makedirs_all. apply isdir_app. auto.
  - rewrite makedirs_all. unfold list_sub_dirs. cbn [map].
    rewrite template_rho_slash. rewrite !join_join by (simpl; discriminate).
    unfold template_rho_params, template_rho_results, template_rho_output, template_rho_plots. rewrite template_rho_slash, !append_assoc.
    repeat constructor; apply isdir_In, in_or_app; right; simpl; tauto.
Qed.

(** ---- hashes ---- *)
Definition own_hashes (f : fstruct) := (hash_vib f, hash_rho f).

Lemma generate_first H fs f c c' force :
  (has_hashes f = false \/ force = true) ->
  fs (path_vib_model f) = Some c -> fs (path_rho_model f) = Some c' ->
  own_hashes (fst (generate_model_hashes H fs force f)) = (Some (H c), Some (H c')) /\
  snd (generate_model_hashes H fs force f) = Ok tt.
Proof.
  intros HF H1 H2. unfold generate_model_hashes.
  assert (has_hashes f && negb force = false) as -> by (destruct HF as [-> | ->]; auto; apply andb_false_r).
  unfold file_hash. rewrite H1. cbn [path_rho_model set_hash_vib]. rewrite H2. auto.
Qed.

Lemma generate_keeps H fs f : has_hashes f = true -> generate_model_hashes H fs false f = (f, Ok tt).
Proof. intros Hf. unfold generate_model_hashes. rewrite Hf. auto. Qed.

(** exact outcome when a file is missing *)
Lemma generate_missing H fs f force :
  (has_hashes f = false \/ force = true) ->
  (fs (path_vib_model f) = None -> generate_model_hashes H fs force f = (f, Raise AssertionError)) /\
  (forall c, fs (path_vib_model f) = Some c -> fs (path_rho_model f) = None ->
     own_hashes (fst (generate_model_hashes H fs force f)) = (Some (H c), hash_rho f) /\
     snd (generate_model_hashes H fs force f) = Raise AssertionError).
Proof.
  intros HF. unfold generate_model_hashes.
  assert (has_hashes f && negb force = false) as -> by (destruct HF as [-> | ->]; auto; apply andb_false_r).
  unfold file_hash. split.
  - intros ->. auto.
  - intros c -> E. cbn [path_rho_model set_hash_vib]. rewrite E. auto.
Qed.

(** histories: the model files are rewritten, the rho id is changed, hashes are requested *)
Inductive fs_op := OpWrite (p c : string) | OpChangeRho (r : Z) | OpHash (force : bool).
Definition op_step (H : string -> string) (s : fstruct * dirs * fsys string) (o : fs_op) : fstruct * dirs * fsys string :=
  let '(f, ds, fs) := s in
  match o with
  | OpWrite p c => (f, ds, fs_write fs p c)
  | OpChangeRho r => (fst (change_rho ds f r), snd (change_rho ds f r), fs)
  | OpHash force => (fst (generate_model_hashes H fs force f), ds, fs)
  end.
Definition run_ops H s ops := fold_left (op_step H) ops s.
Definition no_force (o : fs_op) : bool := match o with OpHash true => false | _ => true end.

Theorem hashes_stale H f ds fs ops :
  has_hashes f = true -> forallb no_force ops = true ->
  own_hashes (fst (fst (run_ops H (f, ds, fs) ops))) = own_hashes f.
Proof.
  revert f ds fs. unfold run_ops. induction ops as [|o ops IH]; intros f ds fs Hf Ho; auto.
  simpl in Ho. apply andb_true_iff in Ho. destruct Ho as [Ho1 Ho2]. cbn [fold_left op_step].
  destruct o as [p c|r|force].
  - apply IH; auto.
  - rewrite IH; auto.
  - destruct force; [discriminate|]. rewrite generate_keeps by auto. apply IH; auto.
Qed.

Theorem valid_hashes_iff f d hv hr :
  hash_vib f = Some hv -> hash_rho f = Some hr ->
  (valid_vib_and_rho_hashes f d = Ok true <-> dget String.eqb d "hash_vib" = Some hv /\ dget String.eqb d "hash_rho" = Some hr).
Proof.
  intros Hv Hr. unfold valid_vib_and_rho_hashes, valid_rho_hash, valid_vib_hash, valid_hash. rewrite Hv, Hr.
  destruct (dget String.eqb d "hash_rho") as [x|]; simpl; [|split; [discriminate|intros [_ H]; discriminate]].
  destruct (String.eqb_spec x hr).
  - subst. destruct (dget String.eqb d "hash_vib") as [y|]; [|split; [discriminate|intros [H _]; discriminate]].
    destruct (String.eqb_spec y hv); subst; split; auto; try discriminate. intros [H _]. congruence.
  - split; [discriminate|]. intros [_ H]. congruence.
Qed.

(** two objects have the same hashes exactly when the hashed contents agree *)
Theorem hashes_agree H fs fs' f f' cv cr cv' cr' :
  (forall a b, H a = H b -> a = b) ->
  has_hashes f = false -> has_hashes f' = false ->
  fs (path_vib_model f) = Some cv -> fs (path_rho_model f) = Some cr ->
  fs' (path_vib_model f') = Some cv' -> fs' (path_rho_model f') = Some cr' ->
  (own_hashes (fst (generate_model_hashes H fs false f)) = own_hashes (fst (generate_model_hashes H fs' false f')) <-> cv = cv' /\ cr = cr').
Proof.
  intros HI Hf Hf' H1 H2 H3 H4.
  destruct (generate_first H fs f cv cr false (or_introl Hf) H1 H2) as [-> _].
  destruct (generate_first H fs' f' cv' cr' false (or_introl Hf') H3 H4) as [-> _].
  split; [|intros [-> ->]; auto]. intros E. injection E as E1 E2. auto.
Qed.

(** ---- formatting of the templates ---- *)
Definition no_brace (s : string) : bool := all_chars (fun c => negb (Ascii.eqb c "{" || Ascii.eqb c "}")) s.

Lemma format_go_literal lookup a s :
  no_brace a = true -> py_format_go lookup None (a ++ s) = (do r <- py_format_go lookup None s; Ok (a ++ r)%string).
Proof.
  unfold no_brace. induction a as [|c a IH]; intros H.
  - simpl. destruct (py_format_go lookup None s); auto.
  - simpl in H. apply andb_true_iff in H. destruct H as [Hc H]. apply negb_true_iff, orb_false_iff in Hc. destruct Hc as [H1 H2].
    cbn [String.append py_format_go]. rewrite H1, H2, IH by auto. destruct (py_format_go lookup None s); auto.
Qed.

Lemma format_go_field lookup b s :
  no_brace b = true ->
  py_format_go lookup None ("{" ++ b ++ "}" ++ s) = (do v <- lookup b; do r <- py_format_go lookup None s; Ok (v ++ r)%string).
Proof.
  intros Hb.
  change (py_format_go lookup None ("{" ++ b ++ "}" ++ s)) with (py_format_go lookup (Some "") (b ++ "}" ++ s)).
  assert (forall acc, no_brace b = true -> py_format_go lookup (Some acc) (b ++ "}" ++ s) =
    (do v <- lookup (acc ++ b)%string; do r <- py_format_go lookup None s; Ok (v ++ r)%string)) as L.
  { clear. induction b as [|c b IH]; intros acc H.
    - cbn. rewrite append_nil_r. auto.
    - unfold no_brace in H. simpl in H. apply andb_true_iff in H. destruct H as [Hc H]. apply negb_true_iff, orb_false_iff in Hc. destruct Hc as [H1 H2].
      cbn [String.append py_format_go]. rewrite H1, H2, IH by auto. rewrite append_assoc. auto. }
  rewrite (L "" Hb). reflexivity.
Qed.

Lemma format_literal args a s : no_brace a = true -> py_format (a ++ s) args = (do r <- py_format s args; Ok (a ++ r)%string).
Proof. apply format_go_literal. Qed.

Definition pimc_args (P : Z) (T : Q) (J : string) := [("P:d", dec P); ("T:.2f", fmt2 T); ("J:s", J)].

Lemma format_pimc dir P T J : no_brace dir = true ->
  py_format (dir ++ tpl_pimc) (pimc_args P T J) = Ok (dir ++ pimc (dec P) (fmt2 T) J)%string.
Proof. intros H. rewrite format_literal by auto. simpl. unfold pimc. rewrite append_nil_r || idtac. reflexivity. Qed.

Lemma format_jackknife dir P T X : no_brace dir = true ->
  py_format (dir ++ tpl_jackknife) [("P:d", dec P); ("T:.2f", fmt2 T); ("X:d", dec X)] = Ok (dir ++ thermo_file P T X)%string.
Proof. intros H. rewrite format_literal by auto. reflexivity. Qed.
Lemma format_sos dir B : no_brace dir = true -> py_format (dir ++ tpl_sos) [("B:d", dec B)] = Ok (dir ++ sos_file B)%string.
Proof. intros H. rewrite format_literal by auto. reflexivity. Qed.
Lemma format_trotter dir P B : no_brace dir = true ->
  py_format (dir ++ tpl_trotter) [("P:d", dec P); ("B:d", dec B)] = Ok (dir ++ trotter_file P B)%string.
Proof. intros H. rewrite format_literal by auto. reflexivity. Qed.

(** a field that is not a parameter name *)
Lemma format_bad args a b s : no_brace a = true -> no_brace b = true -> dget String.eqb args b = None ->
  py_format (a ++ "{" ++ b ++ "}" ++ s) args = Raise KeyError.
Proof.
  intros Ha Hb Hd. rewrite format_literal by auto. unfold py_format. rewrite format_go_field by auto.
  unfold lookup_args. rewrite Hd. auto.
Qed.

(** the file a job writes is the one the analysis pattern stands for *)
Theorem written_file_matches cwd root d r s P T j p :
  no_brace root = true ->
  let f := build_fs cwd root d r in
  result_path (path_rho_results f) s P T j = Ok p ->
  py_format (t_pimc f) (pimc_args P T (dec (match j with Some x => x | None => 0%Z end))) = Ok p.
Proof.
  intros Hb f H. unfold result_path in H. destruct (s =? 0)%Z; [discriminate|].
  assert (E : forall J, join (path_rho_results f) (pimc_file P T J) = (path_rho_results f ++ pimc_file P T J)%string).
  { intros J. cbn [path_rho_results f build_fs]. unfold template_rho_results.
    change "results/" with ("results" ++ "/")%string. rewrite join_sub by (try exact (rel_rho _ _ _); simpl; discriminate).
    rewrite join_app by apply rel_rho. f_equal. rewrite !append_assoc. auto. }
  assert (B : no_brace (path_rho_results f) = true).
  { cbn [path_rho_results f build_fs]. unfold no_brace in *. rewrite join_rel by reflexivity.
    assert (D : forall z, all_chars (fun c => negb (Ascii.eqb c "{" || Ascii.eqb c "}")) (dec z) = true).
    { intros z. eapply all_chars_impl; [|apply dec_int_chars]. intros c Hc.
      destruct (Ascii.eqb_spec c "{"); [subst; discriminate|]. destruct (Ascii.eqb_spec c "}"); [subst; discriminate|]. auto. }
    unfold template_rho_results, template_rho, template_vib. rewrite !all_chars_app, Hb, !D.
    destruct (ends_with_slash root); reflexivity. }
  assert (forall J, py_format (t_pimc f) (pimc_args P T (dec J)) = Ok (path_rho_results f ++ pimc_file P T J)%string) as F.
  { intros J. change (t_pimc f) with (path_rho_results f ++ tpl_pimc)%string. apply format_pimc. auto. }
  destruct j; rewrite E in H; injection H as <-; apply F.
Qed.

Lemma rho_layout cwd root d r :
  rho_attrs (build_fs cwd root d r) = map (fun x => join root ("data_set_" ++ dec d ++ "/rho_" ++ dec r ++ "/" ++ x))%string rho_parts.
Proof.
  rewrite rho_attrs_ok. apply map_ext. intros x. unfold template_rho, template_vib. rewrite !append_assoc. reflexivity.
Qed.
Lemma vib_layout cwd root d r :
  vib_attrs (build_fs cwd root d r) = map (fun x => join root ("data_set_" ++ dec d ++ "/" ++ x))%string vib_parts.
Proof.
  rewrite vib_attrs_ok. apply map_ext. intros x. unfold template_vib. rewrite !append_assoc. reflexivity.
Qed.
Lemma change_rho_layout cwd root d r0 r ds :
  rho_attrs (fst (change_rho ds (build_fs cwd root d r0) r)) =
  map (fun x => join (abspath cwd root) ("data_set_" ++ dec d ++ "/rho_" ++ dec r ++ "/" ++ x))%string rho_parts.
Proof. rewrite (change_rho_fresh cwd root d r0 r ds cwd). apply rho_layout. Qed.

Lemma change_rho_hash H fs ds f r :
  has_hashes f = true ->
  own_hashes (fst (generate_model_hashes H fs false (fst (change_rho ds f r)))) = own_hashes f.
Proof. intros Hf. rewrite generate_keeps; auto. Qed.

Lemma new_fs_dirs cwd root d r ds0 f ds :
  new_fs cwd true ds0 root d r false = Ok (f, ds) ->
  f = build_fs cwd root d r /\ ds = (ds0 ++ dir_values f)%list.
Proof. unfold new_fs. cbn [bind passert]. intros E. injection E as <- <-. split; auto. apply makedirs_all. Qed.

Lemma directories_exist_wrong cwd root d r ds0 f ds isdir_rel :
  new_fs cwd true ds0 root d r false = Ok (f, ds) ->
  isdir_rel "path_data" = false ->
  Forall (fun p => In p ds) (dir_values f) /\ directories_exist isdir_rel = false.
Proof.
  intros H Hi. apply new_fs_dirs in H. destruct H as [_ ->]. split.
  - apply Forall_forall. intros p Hp. apply in_or_app. auto.
  - unfold directories_exist, dir_names. cbn [forallb]. rewrite Hi. auto.
Qed.

Lemma no_makedir_back :
  exists f ds, new_fs "/" true [] "/w" 1 0 true = Ok (f, ds) /\
    let s := change_rho_all ds f [1; 0]%Z in
    Forall (fun p => isdir (snd s) p = false) (rho_dirs (fst s)).
Proof. do 2 eexists. split; [reflexivity|]. vm_compute. repeat constructor. Qed.
