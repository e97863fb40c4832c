(** C108: the directories of the files that the preparation of the models writes *)
From Coq Require Import Reals.
From Verif Require Import Common Common_Proofs PyStr_Model PyStr_Proofs FileName_Model FileName_Proofs Json_Model Arr_Model ModelIO_Model ModelIO_Spec ModelIO_Proofs ModelIO2_Proofs
  Create_Model Point_Model Point_Spec Point_Proofs Job_Model Job_Spec Job4_Proofs FileStruct_Model FileStruct_Proofs Submit_Model Submit2_Model Setup_Model Setup_Spec Setup_Proofs Setup2_Proofs Place_Model.
Local Open Scope list_scope.
Local Open Scope nat_scope.
Local Open Scope string_scope.

(** the root, or a path below the directory of the data set *)
Definition below (root : string) (d : Z) (p : string) : Prop := p = root \/ exists q, p = join root ("data_set_" ++ dec d ++ "/" ++ q).
(** the files and the outcome are those of the run that does not look at the directories; the new directories are all [allowed] *)
Definition same_run {V} (allowed : string -> Prop) (ds : dirs) (x : fs V * dirs * res unit) (y : fs V * res unit) : Prop :=
  (fst (fst x), snd x) = y /\ exists new, snd (fst x) = (ds ++ new)%list /\ Forall allowed new.

Section Steps.
  Context {V : Type}.
  Variable B : string -> Prop.
  Lemma same_keep ds ds' (y : fs V * res unit) : (exists new, ds' = (ds ++ new)%list /\ Forall B new) -> same_run B ds (keep ds' y) y.
  Proof. intros H. destruct y. split; [reflexivity|exact H]. Qed.
  Lemma same_next ds x (y : fs V * res unit) k k' : same_run B ds x y ->
    (forall f new, snd (fst x) = (ds ++ new)%list -> Forall B new -> same_run B (ds ++ new)%list (k f (ds ++ new)%list) (k' f)) -> same_run B ds (next x k) (andthen y k').
  Proof.
    destruct x as [[f ds'] [[]|e]]; intros [E (new & D & F)] H; cbn [fst snd] in *; subst y ds'; cbn [next andthen].
    - destruct (H f new eq_refl F) as [H1 (new2 & H2 & H3)]. split; [exact H1|]. exists (new ++ new2)%list. rewrite app_assoc. split; [exact H2|apply Forall_app; auto].
    - split; [reflexivity|]. exists new. auto.
  Qed.
  Lemma same_more ds new x (y : fs V * res unit) : Forall B new -> same_run B (ds ++ new)%list x y -> same_run B ds x y.
  Proof. intros F [H1 (n & H2 & H3)]. split; [exact H1|]. exists (new ++ n)%list. rewrite app_assoc. split; [exact H2|apply Forall_app; auto]. Qed.
  Lemma same_stop ds (f : fs V) e : same_run B ds (f, ds, Raise e) (f, Raise e).
  Proof. split; [reflexivity|]. exists []. rewrite app_nil_r. auto. Qed.
End Steps.
Lemma same_weaken {V} (B B' : string -> Prop) ds x (y : fs V * res unit) : (forall p, B p -> B' p) -> same_run B ds x y -> same_run B' ds x y.
Proof. intros I [H1 (n & H2 & H3)]. split; [exact H1|]. exists n. split; [exact H2|]. eapply Forall_impl; [exact I|exact H3]. Qed.

Lemma makes l : forall ds, fold_left makedirs l ds = (ds ++ l)%list.
Proof. induction l as [|p l IH]; intros ds; cbn [fold_left]; [rewrite app_nil_r; reflexivity|]. rewrite IH. unfold makedirs. rewrite <- app_assoc. reflexivity. Qed.
Lemma is_there ds p : In p ds -> FileStruct_Model.isdir ds p = true.
Proof. intros I. unfold FileStruct_Model.isdir. apply existsb_exists. exists p. split; [exact I|]. apply String.prefix_correct. clear I. induction p as [|c p IH]; [reflexivity|]. cbn. f_equal. exact IH. Qed.
Lemma slashed root t : rel t -> exists y, join root (t ++ "/") = y ++ "/".
Proof.
  intros R. rewrite join_rel by (apply rel_prefix; destruct t; [destruct R|exact R]). exists (root ++ (if ends_with_slash root then "" else "/") ++ t). rewrite !append_assoc. reflexivity.
Qed.
Lemma file_dir root t c x : rel t -> lacks "/" (String c x) -> fst (dir_base (join (join root (t ++ "/")) (String c x))) = join root (t ++ "/").
Proof.
  intros R L. destruct (slashed root t R) as [y ->].
  assert (N : c <> "/"%char) by (intros ->; apply L; left; reflexivity).
  rewrite join_rel by (apply (rel_prefix (String c x)); exact N). rewrite ends_slash. rewrite append_assoc. change ("/" ++ "" ++ String c x) with (String "/" (String c x)). rewrite dir_base_spec by exact L. reflexivity.
Qed.

Section Placed.
  Variables (cwd root : string) (d : Z).
  Definition vdir : string := join root (template_vib_params d).
  Definition rdir (r : Z) : string := join (abspath cwd root) (template_rho_params d r).
  (** what the object and the directories are at any time *)
  Record placed (ds : dirs) (FS : fstruct) : Prop := {
    pl_d : id_data FS = d; pl_r : id_rho FS = 0%Z; pl_root : path_root FS = abspath cwd root;
    pl_vib : path_vib_model FS = join vdir "coupled_model.json"; pl_har : path_har_model FS = join vdir "harmonic_model.json";
    pl_iter : path_iter_model FS = join vdir "iterative_model.json"; pl_orig : path_orig_model FS = join vdir "original_coupled_model.json";
    pl_ortho : path_ortho_mat FS = join vdir "orthogonal_matrix.npy";
    pl_values : Forall (fun p => below (abspath cwd root) d p) (dir_values FS);
    pl_vdir : In vdir ds; pl_rdir : In (rdir 0) ds }.
  Lemma placed_more ds new FS : placed ds FS -> placed (ds ++ new)%list FS.
  Proof. intros []. constructor; auto; apply in_or_app; left; assumption. Qed.

  Lemma in_vdir ds c x : In vdir ds -> lacks "/" (String c x) -> has_directory ds (join vdir (String c x)) = true.
  Proof.
    intros I L. unfold has_directory, vdir, template_vib_params in *. change (template_vib d ++ "parameters/") with (template_vib d ++ ("parameters" ++ "/")) in *. rewrite <- append_assoc in *.
    rewrite file_dir; [apply is_there; exact I|cbn; discriminate|exact L].
  Qed.
  Lemma in_rdir ds r : In (rdir r) ds -> has_directory ds (join (rdir r) "sampling_model.json") = true.
  Proof.
    intros I. unfold has_directory, rdir, template_rho_params in *. change (template_rho d r ++ "parameters/") with (template_rho d r ++ ("parameters" ++ "/")) in *. rewrite <- append_assoc in *.
    rewrite file_dir; [apply is_there; exact I|cbn; discriminate|]. intros X. cbn in X. intuition discriminate.
  Qed.

  Variable plain : plain_root cwd root.
  Lemma rdir_plain : join root (template_rho_params d 0) = rdir 0.
  Proof. unfold rdir. symmetry. apply plain. split; [discriminate|reflexivity]. Qed.
  Lemma below_join q : below (abspath cwd root) d (join (abspath cwd root) ("data_set_" ++ dec d ++ "/" ++ q)). Proof. right. eauto. Qed.
  Lemma below_plain q : below (abspath cwd root) d (join root ("data_set_" ++ dec d ++ "/" ++ q)).
  Proof. right. exists q. symmetry. apply plain. split; [discriminate|reflexivity]. Qed.
  Lemma under_vib q : template_vib d ++ q = "data_set_" ++ dec d ++ "/" ++ q. Proof. unfold template_vib. rewrite !append_assoc. reflexivity. Qed.
  Lemma under_rho r q : template_rho d r ++ q = "data_set_" ++ dec d ++ "/" ++ ("rho_" ++ dec r ++ "/" ++ q). Proof. unfold template_rho, template_vib. rewrite !append_assoc. reflexivity. Qed.

  Lemma values_below r : Forall (fun p => below (abspath cwd root) d p) (dir_values (build_fs cwd root d r)).
  Proof.
    unfold dir_values. cbn [build_fs path_data path_es path_rho path_rho_output path_rho_params path_rho_plots path_rho_results path_root path_vib_output path_vib_params path_vib_plots path_vib_results].
    unfold template_vib_params, template_vib_results, template_vib_output, template_vib_plots, template_rho_params, template_rho_results, template_rho_output, template_rho_plots.
    assert (D : template_vib d = "data_set_" ++ dec d ++ "/" ++ "") by (unfold template_vib; reflexivity).
    assert (E : template_rho d r = "data_set_" ++ dec d ++ "/" ++ ("rho_" ++ dec r ++ "/")) by (unfold template_rho, template_vib; rewrite !append_assoc; reflexivity).
    repeat (apply Forall_cons; [|]); [| | | | | | | | | | | |apply Forall_nil]; rewrite ?under_vib, ?under_rho; try apply below_plain.
    - rewrite D. apply below_join.
    - right. exists "electronic_structure". rewrite <- under_vib. unfold template_vib. rewrite <- (append_assoc "data_set_"), join_join by (cbn; discriminate). rewrite !append_assoc. reflexivity.
    - rewrite E. apply below_join.
    - left. reflexivity.
  Qed.
  Lemma placed_new ds FS ds' : new_fs cwd true ds root d 0 false = Ok (FS, ds') -> placed ds' FS /\ path_rho_model FS = join (rdir 0) "sampling_model.json" /\ exists new, ds' = (ds ++ new)%list /\ Forall (below (abspath cwd root) d) new.
  Proof.
    unfold new_fs, make_directories. cbn [passert bind]. rewrite makes. intros E. injection E as <- <-. split; [|split].
    - constructor; try reflexivity; try apply values_below; apply in_or_app; right.
      + unfold dir_values. do 9 right. left. reflexivity.
      + rewrite <- rdir_plain. do 4 right. left. reflexivity.
    - rewrite <- rdir_plain. reflexivity.
    - eexists. split; [reflexivity|apply values_below].
  Qed.
  Lemma placed_change ds FS r FS' ds' : placed ds FS -> change_rho ds FS r = (FS', ds') ->
    FS' = set_rho FS r /\ placed ds' FS' /\ path_rho_model FS' = join (rdir r) "sampling_model.json" /\ In (rdir r) ds' /\ exists new, ds' = (ds ++ new)%list /\ Forall (below (abspath cwd root) d) new.
  Proof.
    intros P E. pose proof P as []. unfold change_rho in E. injection E as <- <-. split; [reflexivity|].
    assert (N : exists new, make_rho_directories ds FS r = (ds ++ new)%list /\ Forall (below (abspath cwd root) d) new /\ In (rdir r) (ds ++ new)%list).
    { unfold make_rho_directories, make_directories. rewrite pl_r0, pl_root0, pl_d0, !makes. destruct (r =? 0)%Z eqn:Z0.
      - apply Z.eqb_eq in Z0. subst r. eexists. split; [reflexivity|]. split; [exact pl_values0|]. apply in_or_app. left. exact pl_rdir0.
      - eexists. split; [reflexivity|]. assert (J : forall x, rel x -> join (join (abspath cwd root) (template_rho d r)) x = join (abspath cwd root) (template_rho d r ++ x)).
        { intros x X. unfold template_rho. rewrite <- (append_assoc "rho_"), <- (append_assoc (template_vib d)). rewrite join_join by (first [exact X|cbn; discriminate]). rewrite !append_assoc. reflexivity. }
        split.
        + cbn [map list_sub_dirs]. repeat apply Forall_cons; try apply Forall_nil; rewrite J by (cbn; discriminate); rewrite under_rho; apply below_join.
        + apply in_or_app. right. left. rewrite J by (cbn; discriminate). reflexivity. }
    destruct N as (new & -> & N1 & N2). split; [|split; [|split; [exact N2|eauto]]].
    - apply placed_more. destruct P. constructor; auto. unfold dir_values in *. cbn [set_rho path_data path_es path_rho path_rho_output path_rho_params path_rho_plots path_rho_results path_root path_vib_output path_vib_params path_vib_plots path_vib_results].
      rewrite pl_root0, pl_d0. rewrite Forall_forall in pl_values0.
      repeat (apply Forall_cons; [|]); [| | | | | | | | | | | |apply Forall_nil]; unfold template_rho_params, template_rho_results, template_rho_output, template_rho_plots; rewrite ?under_rho; try apply below_join; try (left; reflexivity); apply pl_values0; cbn; auto 15.
    - cbn [set_rho path_rho_model]. rewrite pl_root0, pl_d0. reflexivity.
  Qed.
End Placed.

Ltac names := intros X; cbn in X; intuition discriminate.
Lemma writing_ok {V} ds paths (f : fs V) call : (forall p, In p paths -> has_directory ds p = true) -> writing ds paths f call = call.
Proof. intros H. unfold writing. replace (forallb (has_directory ds) paths) with true; [reflexivity|]. symmetry. apply forallb_forall. exact H. Qed.

Section Paper.
  Context {V : Type}.
  Variables (zero : V) (isz : V -> bool) (vint : V -> res Z) (dir : string).
  Lemma alternates_same cwd root d : forall files ds (f : fs V) FS, placed cwd root d ds FS ->
    same_run (below (abspath cwd root) d) ds (copy_alternates_at ds f FS files) (copy_alternates f FS files).
  Proof.
    induction files as [|file files IH]; intros ds f FS P; cbn [copy_alternates_at copy_alternates].
    - split; [reflexivity|]. exists []. rewrite app_nil_r. auto.
    - destruct (alternate_id file) as [r|e]; [|apply same_stop]. destruct (change_rho ds FS r) as [FS' ds'] eqn:C.
      destruct (placed_change cwd root d ds FS r FS' ds' P C) as (-> & P' & M & I & new & -> & F).
      apply (same_more _ ds new _ _ F). apply same_next.
      + rewrite writing_ok; [apply same_keep; exists []; rewrite app_nil_r; auto|]. intros p [<-|[]]. rewrite M. apply in_rdir. exact I.
      + intros f1 new1 _ F1. apply IH. apply placed_more. exact P'.
  Qed.
  Lemma paper_same cwd host names ds (f : fs V) name d root : (forall r, root = Some r -> plain_root cwd r) -> forall b,
    same_run (fun p => exists r, root_or_chosen paper_root host root = Ok r /\ below (abspath cwd r) d p) ds (prepare_paper_at zero isz vint dir cwd host b names ds f name d root) (prepare_paper zero isz vint dir cwd host b names f name d root).
  Proof.
    intros PR b. unfold prepare_paper_at, prepare_paper. destruct (assert_id_data_is_valid d) as [[]|e]; cbn [bind]; [|apply same_stop].
    destruct (root_or_chosen paper_root host root) as [r|e] eqn:R; cbn [bind]; [|apply same_stop]. apply (same_weaken (below (abspath cwd r) d)); [intros p H; eauto|].
    assert (PL : plain_root cwd r).
    { destruct root as [r0|]; [injection R as <-; apply PR; reflexivity|]. unfold root_or_chosen, choose_root in R. destruct (existsb _ _); [|discriminate]. injection R as <-.
      intros q Q. change (abspath cwd paper_root) with "/work/ngraymon/pimc/paper_2018". destruct Q as [Q1 Q2]. destruct q as [|c q]; [congruence|]. unfold join. rewrite Q2. reflexivity. }
    destruct b; [|apply same_stop]. destruct (new_fs cwd true ds r d 0 false) as [[FS ds']|e] eqn:N; [|discriminate].
    destruct (placed_new cwd r d PL ds FS ds' N) as (P & M & new & -> & F). replace (do p <- new_fs cwd true [] r d 0 false; Ok (fst p)) with (@Ok fstruct FS) by (unfold new_fs in *; cbn in *; congruence).
    apply (same_more _ ds new _ _ F). apply same_next.
    - assert (E : paper_copy_input_at zero isz vint dir (ds ++ new)%list f FS name = paper_copy_input zero isz vint dir f FS name).
      { unfold paper_copy_input_at, paper_copy_input. destruct P. rewrite writing_ok.
        - destruct (copyfile f (paper_input dir name (id_data FS)) (path_vib_model FS)) as [f1 [[]|e]]; cbn [andthen]; [|reflexivity]. apply writing_ok. intros p [<-|[<-|[]]].
          + rewrite pl_har0. apply in_vdir; [exact pl_vdir0|names].
          + rewrite M. apply in_rdir. exact pl_rdir0.
        - intros p [<-|[]]. rewrite pl_vib0. apply in_vdir; [exact pl_vdir0|names]. }
      rewrite E. apply same_keep. exists []. rewrite app_nil_r. auto.
    - intros f1 new1 _ F1. apply alternates_same. apply placed_more. exact P.
  Qed.
End Paper.

Lemma server_plain cwd e : plain_root cwd (match e with true => paper_root | false => art_root end).
Proof. intros q [Q1 Q2]. destruct e; [change (abspath cwd paper_root) with "/work/ngraymon/pimc/paper_2018"|change (abspath cwd art_root) with "/work/ngraymon/pimc/artificial"]; destruct q as [|c q]; try congruence; unfold join; rewrite Q2; reflexivity. Qed.

Section Iterative.
  Variables (vint : R -> res Z) (eigvalsh : nat -> (nat -> nat -> R) -> list R) (job : string -> Z -> fs R -> fs R * res unit).
  Lemma run_same (e : bool) valid cwd host b d ds f : let server := match e with true => paper_root | false => art_root end in
    same_run (fun p => In host ["nlogn"; "feynman"] /\ below (abspath cwd server) d p) ds (run_iterative_at job valid server cwd host b d ds f) (run_iterative job valid server cwd host b d f).
  Proof.
    intros server. unfold run_iterative_at, run_iterative. destruct (valid d) as [[]|x]; cbn [bind]; [|apply same_stop].
    unfold choose_root. destruct (existsb (String.eqb host) server_names) eqn:H; cbn [bind]; [|apply same_stop].
    assert (IH : In host ["nlogn"; "feynman"]) by (apply existsb_exists in H; destruct H as (y & Y & E); apply String.eqb_eq in E; subst y; exact Y).
    destruct b; [|apply same_stop]. destruct (new_fs cwd true ds server d 0 false) as [[FS ds']|y] eqn:N; [|discriminate].
    destruct (placed_new cwd server d (server_plain cwd e) ds FS ds' N) as (P & _ & new & -> & F). replace (do p <- new_fs cwd true [] server d 0 false; Ok (fst p)) with (@Ok fstruct FS) by (unfold new_fs in *; cbn in *; congruence).
    apply same_keep. exists new. split; [reflexivity|]. eapply Forall_impl; [|exact F]. auto.
  Qed.
  Lemma iterative_same cwd host b root d : forall ds f FS, placed cwd root d ds FS ->
    same_run (fun p => below (abspath cwd root) d p \/ In host ["nlogn"; "feynman"] /\ below (abspath cwd paper_root) d p) ds (setup_iterative_at vint eigvalsh job cwd host b ds f FS) (setup_iterative vint eigvalsh job cwd host b f FS).
  Proof.
    intros ds f FS P. unfold setup_iterative_at, setup_iterative. destruct (change_rho ds FS iterative_model_id_rho) as [FS' ds'] eqn:C.
    destruct (placed_change cwd root d ds FS _ FS' ds' P C) as (-> & P' & M & I & new & -> & F).
    apply (same_more _ ds new); [eapply Forall_impl; [|exact F]; auto|]. apply same_next.
    - eapply same_weaken; [|apply (run_same true)]. cbv beta. rewrite (pl_d _ _ _ _ _ P'). auto.
    - intros f1 new1 _ F1. pose proof (placed_more _ _ _ _ new1 _ P') as P1. apply same_next.
      + rewrite writing_ok; [apply same_keep; exists []; rewrite app_nil_r; auto|]. intros p [<-|[]]. destruct P1. rewrite pl_iter0. apply in_vdir; [exact pl_vdir0|names].
      + intros f2 new2 _ F2. rewrite writing_ok; [apply same_keep; exists []; rewrite app_nil_r; auto|]. intros p [<-|[]]. rewrite M. apply in_rdir. do 2 (apply in_or_app; left). exact I.
  Qed.
  Lemma sampling_same cwd host b root d : forall ds f FS, placed cwd root d ds FS ->
    same_run (fun p => below (abspath cwd root) d p \/ In host ["nlogn"; "feynman"] /\ below (abspath cwd art_root) d p) ds (art_sampling_at vint eigvalsh job cwd host b ds f FS) (art_sampling vint eigvalsh job cwd host b f FS).
  Proof.
    intros ds f FS P. unfold art_sampling_at, art_sampling.
    destruct (change_rho ds FS 0) as [FS0 ds0] eqn:C. destruct (placed_change cwd root d ds FS _ _ _ P C) as (-> & P0 & M0 & I0 & n0 & -> & F0). clear C. apply (same_more _ ds n0); [eapply Forall_impl; [|exact F0]; auto|].
    apply same_next; [rewrite writing_ok; [apply same_keep; exists []; rewrite app_nil_r; auto|]|].
    { intros p [<-|[<-|[]]]; [destruct P0; rewrite pl_har0; apply in_vdir; [exact pl_vdir0|names]|rewrite M0; apply in_rdir; exact I0]. }
    intros f1 w1 _ _. apply (placed_more _ _ _ _ w1) in P0. set (d1 := ((ds ++ n0) ++ w1)%list) in *.
    destruct (change_rho d1 (set_rho FS 0) 1) as [FS1 ds1] eqn:C. destruct (placed_change cwd root d _ _ _ _ _ P0 C) as (-> & P1 & M1 & I1 & n1 & -> & F1). clear C. apply (same_more _ d1 n1); [eapply Forall_impl; [|exact F1]; auto|].
    apply same_next; [rewrite writing_ok; [apply same_keep; exists []; rewrite app_nil_r; auto|]|].
    { intros p [<-|[]]. rewrite M1. apply in_rdir. exact I1. }
    intros f2 w2 _ _. apply (placed_more _ _ _ _ w2) in P1. set (d2 := ((d1 ++ n1) ++ w2)%list) in *.
    destruct (change_rho d2 (set_rho (set_rho FS 0) 1) 2) as [FS2 ds2] eqn:C. destruct (placed_change cwd root d _ _ _ _ _ P1 C) as (-> & P2 & M2 & I2 & n2 & -> & F2). clear C. apply (same_more _ d2 n2); [eapply Forall_impl; [|exact F2]; auto|].
    apply same_next; [eapply same_weaken; [|apply (run_same false)]; cbv beta; rewrite (pl_d _ _ _ _ _ P2); auto|].
    intros f3 w3 _ _. apply (placed_more _ _ _ _ w3) in P2.
    apply same_next; [rewrite writing_ok; [apply same_keep; exists []; rewrite app_nil_r; auto|]|].
    { intros p [<-|[]]. rewrite M2. apply in_rdir. apply in_or_app. left. exact I2. }
    intros f4 w4 _ _. apply (placed_more _ _ _ _ w4) in P2. set (d4 := (((d2 ++ n2) ++ w3) ++ w4)%list) in *.
    destruct (change_rho d4 (set_rho (set_rho (set_rho FS 0) 1) 2) 3) as [FS3 ds3] eqn:C. destruct (placed_change cwd root d _ _ _ _ _ P2 C) as (-> & P3 & M3 & I3 & n3 & -> & F3). clear C. apply (same_more _ d4 n3); [eapply Forall_impl; [|exact F3]; auto|].
    apply same_next; [rewrite writing_ok; [apply same_keep; exists []; rewrite app_nil_r; auto|]|].
    { intros p [<-|[]]. rewrite M3. apply in_rdir. exact I3. }
    intros f5 w5 _ _. apply (placed_more _ _ _ _ w5) in P3. set (d5 := ((d4 ++ n3) ++ w5)%list) in *.
    destruct (change_rho d5 (set_rho (set_rho (set_rho (set_rho FS 0) 1) 2) 3) 4) as [FS4 ds4] eqn:C. destruct (placed_change cwd root d _ _ _ _ _ P3 C) as (-> & P4 & M4 & I4 & n4 & -> & F4). clear C. apply (same_more _ d5 n4); [eapply Forall_impl; [|exact F4]; auto|].
    apply same_next; [rewrite writing_ok; [apply same_keep; exists []; rewrite app_nil_r; auto|]|].
    { intros p [<-|[]]. rewrite M4. apply in_rdir. exact I4. }
    intros f6 w6 _ _. rewrite writing_ok; [apply same_keep; exists []; rewrite app_nil_r; auto|]. intros p [<-|[]]. rewrite M4. apply in_rdir. apply in_or_app. left. exact I4.
  Qed.
End Iterative.

(** the root that is given, or that of the server *)
Definition root_is (server host : string) (root : option string) (r : string) : Prop := root = Some r \/ root = None /\ In host ["nlogn"; "feynman"] /\ r = server.
Lemma root_is_ok server host root r : root_or_chosen server host root = Ok r -> root_is server host root r.
Proof.
  unfold root_or_chosen, choose_root, root_is. destruct root as [r0|]; [intros E; injection E as <-; auto|]. destruct (existsb (String.eqb host) server_names) eqn:H; [|discriminate]. intros E. injection E as <-. right.
  split; [reflexivity|]. split; [|reflexivity]. apply existsb_exists in H. destruct H as (y & Y & E). apply String.eqb_eq in E. subst y. exact Y.
Qed.

(** C108: the preparation of a model of the paper never misses a directory: whatever files and directories there are, the files and the
    outcome are those of C97, and only directories of the data set are made *)
Theorem C108_paper {V} (zero : V) isz vint dir cwd host b names ds (f : fs V) name d root : (forall r, root = Some r -> plain_root cwd r) ->
  same_run (fun p => exists r, root_is "/work/ngraymon/pimc/paper_2018/" host root r /\ below (abspath cwd r) d p) ds
    (prepare_paper_at zero isz vint dir cwd host b names ds f name d root) (prepare_paper zero isz vint dir cwd host b names f name d root).
Proof. intros PR. eapply same_weaken; [|apply paper_same; exact PR]. intros p (r & R & B). exists r. split; [apply root_is_ok; exact R|exact B]. Qed.
(** C108: neither does the preparation of all models *)
Theorem C108_automate {V} (zero : V) isz vint dir cwd host b names ds (f : fs V) :
  same_run (fun p => In host ["nlogn"; "feynman"] /\ exists d, (11 <= d <= 46)%Z /\ below "/work/ngraymon/pimc/paper_2018" d p) ds
    (automate_paper_at zero isz vint dir cwd host b names ds f) (automate_paper zero isz vint dir cwd host b names f).
Proof.
  unfold automate_paper_at, automate_paper. assert (L : forall x, In x all_models -> (11 <= snd x <= 46)%Z) by (intros x I; repeat (destruct I as [<-|I]; [cbn; lia|]); destruct I).
  revert ds f L. generalize all_models. induction l as [|[name d] l IH]; intros ds f L; cbn [prepare_all_at prepare_all].
  - split; [reflexivity|]. exists []. rewrite app_nil_r. auto.
  - apply same_next.
    + eapply same_weaken; [|apply C108_paper; discriminate]. cbv beta. intros p (r & [R|(_ & H & ->)] & B); [discriminate|]. split; [exact H|]. exists d. split; [apply (L (name, d)); left; reflexivity|]. exact B.
    + intros f1 new _ F. apply IH. intros x I. apply L. right. exact I.
Qed.
(** C108: nor with the iterative method *)
Theorem C108_iterative vint eigvalsh job dir cwd host b sb names ds f name d root : (forall r, root = Some r -> plain_root cwd r) ->
  same_run (fun p => (exists r, root_is "/work/ngraymon/pimc/paper_2018/" host root r /\ below (abspath cwd r) d p) \/ In host ["nlogn"; "feynman"] /\ below "/work/ngraymon/pimc/paper_2018" d p) ds
    (prepare_iterative_at vint eigvalsh job dir cwd host b sb names ds f name d root) (prepare_iterative vint eigvalsh job dir cwd host b sb names f name d root).
Proof.
  intros PR. unfold prepare_iterative_at, prepare_iterative. apply same_next; [eapply same_weaken; [|apply C108_paper; exact PR]; auto|].
  intros f1 new _ F. destruct (root_or_chosen paper_root host root) as [r|e] eqn:R; cbn [bind]; [|apply same_stop].
  assert (PL : plain_root cwd r) by (destruct (root_is_ok _ _ _ _ R) as [->|(_ & _ & ->)]; [apply PR; reflexivity|apply (server_plain cwd true)]).
  destruct b; [|apply same_stop]. destruct (new_fs cwd true (ds ++ new)%list r d 0 false) as [[FS ds']|e] eqn:N; [|discriminate].
  destruct (placed_new cwd r d PL _ FS ds' N) as (P & _ & new' & -> & F'). replace (do p <- new_fs cwd true [] r d 0 false; Ok (fst p)) with (@Ok fstruct FS) by (unfold new_fs in *; cbn in *; congruence).
  apply (same_more _ (ds ++ new)%list new'); [eapply Forall_impl; [|exact F']; intros p B; left; exists r; split; [apply root_is_ok; exact R|exact B]|].
  eapply same_weaken; [|apply (iterative_same vint eigvalsh job cwd host sb r d); exact P]. cbv beta. intros p [B|B]; [left; exists r; split; [apply root_is_ok; exact R|exact B]|right; exact B].
Qed.
(** C108: nor that of an artificial system *)
Theorem C108_artificial vint eigvalsh job close new_matrix dir cwd host b sb ds f name d root : (forall r, root = Some r -> plain_root cwd r) ->
  same_run (fun p => (exists r, root_is "/work/ngraymon/pimc/artificial/" host root r /\ below (abspath cwd r) d p) \/ In host ["nlogn"; "feynman"] /\ below "/work/ngraymon/pimc/artificial" d p) ds
    (art_prepare_at vint eigvalsh job close new_matrix dir cwd host b sb ds f name d root) (art_prepare vint eigvalsh job close new_matrix dir cwd host b sb f name d root).
Proof.
  intros PR. unfold art_prepare_at, art_prepare. destruct (art_assert_valid d) as [[]|e]; cbn [bind]; [|apply same_stop].
  destruct (root_or_chosen art_root host root) as [r|e] eqn:R; cbn [bind]; [|apply same_stop].
  assert (PL : plain_root cwd r) by (destruct (root_is_ok _ _ _ _ R) as [->|(_ & _ & ->)]; [apply PR; reflexivity|apply (server_plain cwd false)]).
  destruct b; [|apply same_stop]. destruct (new_fs cwd true ds r d 0 false) as [[FS ds']|e] eqn:N; [|discriminate].
  destruct (placed_new cwd r d PL _ FS ds' N) as (P & _ & new & -> & F). replace (do p <- new_fs cwd true [] r d 0 false; Ok (fst p)) with (@Ok fstruct FS) by (unfold new_fs in *; cbn in *; congruence).
  apply (same_more _ ds new); [eapply Forall_impl; [|exact F]; intros p B; left; exists r; split; [apply root_is_ok; exact R|exact B]|]. pose proof P as [].
  apply same_next; [rewrite writing_ok; [apply same_keep; exists []; rewrite app_nil_r; auto|]|].
  { intros p [<-|[]]. rewrite pl_vib0. apply in_vdir; [exact pl_vdir0|names]. }
  intros f1 w1 _ _. apply same_next; [rewrite writing_ok; [apply same_keep; exists []; rewrite app_nil_r; auto|]|].
  { intros p [<-|[<-|[<-|[]]]]; rewrite ?pl_vib0, ?pl_orig0, ?pl_ortho0; apply in_vdir; try names; apply in_or_app; left; exact pl_vdir0. }
  intros f2 w2 _ _. eapply same_weaken; [|apply (sampling_same vint eigvalsh job cwd host sb r d); do 2 apply placed_more; exact P]. cbv beta. intros p [B|B]; [left; exists r; split; [apply root_is_ok; exact R|exact B]|right; exact B].
Qed.
Print Assumptions C108_paper.
Print Assumptions C108_automate.
Print Assumptions C108_iterative.
Print Assumptions C108_artificial.

(** C108: it is the object that makes them: with no_makedir nothing could be written *)
Theorem C108_without {V} (zero : V) isz vint dir cwd root d ds (f : fs V) name :
  (FileStruct_Model.isdir ds (join root ("data_set_" ++ dec d ++ "/parameters/")) = false ->
   exists FS, new_fs cwd true ds root d 0 true = Ok (FS, ds) /\ paper_copy_input_at zero isz vint dir ds f FS name = (f, Raise OSError)) /\
  (FileStruct_Model.isdir ds (join root ("data_set_" ++ dec d ++ "/parameters/")) = true -> FileStruct_Model.isdir ds (join root ("data_set_" ++ dec d ++ "/rho_0/parameters/")) = false ->
   exists FS f1 e, new_fs cwd true ds root d 0 true = Ok (FS, ds) /\ paper_copy_input_at zero isz vint dir ds f FS name = (f1, Raise e) /\
     forall p, p <> join root ("data_set_" ++ dec d ++ "/parameters/coupled_model.json") -> f1 p = f p).
Proof.
  assert (VD : forall c x, lacks "/" (String c x) -> has_directory ds (join (join root (template_vib_params d)) (String c x)) = FileStruct_Model.isdir ds (join root ("data_set_" ++ dec d ++ "/parameters/"))).
  { intros c x L. unfold has_directory, template_vib_params. change "parameters/" with ("parameters" ++ "/"). rewrite <- append_assoc. rewrite file_dir; [|cbn; discriminate|exact L]. f_equal. f_equal. unfold template_vib. rewrite !append_assoc. reflexivity. }
  assert (RD : has_directory ds (join (join root (template_rho_params d 0)) "sampling_model.json") = FileStruct_Model.isdir ds (join root ("data_set_" ++ dec d ++ "/rho_0/parameters/"))).
  { unfold has_directory, template_rho_params. change "parameters/" with ("parameters" ++ "/"). rewrite <- append_assoc. rewrite file_dir; [|cbn; discriminate|names]. f_equal. f_equal. unfold template_rho, template_vib. rewrite !append_assoc. reflexivity. }
  split.
  - intros E. eexists. split; [reflexivity|]. unfold paper_copy_input_at, writing. cbn [build_fs path_vib_model forallb]. rewrite VD by names. rewrite E. reflexivity.
  - intros E E2. set (FS := build_fs cwd root d 0). exists FS. unfold paper_copy_input_at. rewrite writing_ok.
    + destruct (copyfile f (paper_input dir name (id_data FS)) (path_vib_model FS)) as [f1 o] eqn:C.
      assert (K : forall p, p <> join root ("data_set_" ++ dec d ++ "/parameters/coupled_model.json") -> f1 p = f p).
      { intros p N. replace f1 with (fst (copyfile f (paper_input dir name (id_data FS)) (path_vib_model FS))) by (rewrite C; reflexivity). apply copy_frame. unfold FS. rewrite FS_vib. exact N. }
      destruct o as [[]|e]; [|exists f1, e; auto]. exists f1, OSError. split; [reflexivity|]. split; [|exact K]. cbn [andthen]. unfold writing. cbn [forallb].
      replace (has_directory ds (path_rho_model FS)) with false by (symmetry; unfold FS; cbn [build_fs path_rho_model]; rewrite RD; exact E2). rewrite andb_false_r. reflexivity.
    + intros p [<-|[]]. unfold FS. cbn [build_fs path_vib_model]. rewrite VD by names. exact E.
Qed.
(** the directory of the file is there *)
Definition housed (ds : dirs) (p : string) : Prop := exists a x, p = a ++ "/" ++ x /\ lacks "/" x /\ FileStruct_Model.isdir ds (a ++ "/") = true.
Lemma housed_more ds new p : housed ds p -> housed (ds ++ new)%list p.
Proof. intros (a & x & E & L & I). exists a, x. split; [exact E|]. split; [exact L|]. unfold FileStruct_Model.isdir in *. rewrite existsb_app, I. reflexivity. Qed.
Lemma housed_in ds root t c x : rel t -> lacks "/" (String c x) -> In (join root (t ++ "/")) ds -> housed ds (join (join root (t ++ "/")) (String c x)).
Proof.
  intros R L I. destruct (slashed root t R) as [y E]. rewrite E in *. exists y, (String c x). split; [|split; [exact L|apply is_there; exact I]].
  assert (N : c <> "/"%char) by (intros ->; apply L; left; reflexivity). rewrite join_rel by (apply (rel_prefix (String c x)); exact N). rewrite ends_slash, append_assoc. reflexivity.
Qed.
Lemma housed_v cwd root d ds FS c x : placed cwd root d ds FS -> lacks "/" (String c x) -> housed ds (join (vdir root d) (String c x)).
Proof.
  intros [] L. unfold vdir, template_vib_params in *. change (template_vib d ++ "parameters/") with (template_vib d ++ ("parameters" ++ "/")) in *. rewrite <- append_assoc in *. apply housed_in; [cbn; discriminate|exact L|exact pl_vdir0].
Qed.
Lemma housed_r cwd root d ds r : In (rdir cwd root d r) ds -> housed ds (join (rdir cwd root d r) "sampling_model.json").
Proof.
  intros I. unfold rdir, template_rho_params in *. change (template_rho d r ++ "parameters/") with (template_rho d r ++ ("parameters" ++ "/")) in *. rewrite <- append_assoc in *. apply housed_in; [cbn; discriminate|names|exact I].
Qed.
(** each file that is changed is in a directory that is there *)
Definition tidy {V} (f : fs V) (x : fs V * dirs * res unit) : Prop := forall p, housed (snd (fst x)) p \/ fst (fst x) p = f p.
Lemma alternates_tidy {V} cwd root d : forall files ds (f : fs V) FS, placed cwd root d ds FS -> tidy f (copy_alternates_at ds f FS files).
Proof.
  induction files as [|file files IH]; intros ds f FS P; cbn [copy_alternates_at]; [right; reflexivity|].
  destruct (alternate_id file) as [r|e]; [|right; reflexivity]. destruct (change_rho ds FS r) as [FS' ds'] eqn:C.
  destruct (placed_change cwd root d ds FS r FS' ds' P C) as (-> & P' & M & I & _). rewrite writing_ok by (intros p [<-|[]]; rewrite M; apply in_rdir; exact I).
  unfold keep. destruct (copyfile f file (path_rho_model (set_rho FS r))) as [f1 o] eqn:K. cbn [fst snd].
  assert (T : forall p, housed ds' p \/ f1 p = f p).
  { intros p. destruct (string_dec p (path_rho_model (set_rho FS r))) as [->|N]; [left; rewrite M; apply housed_r; exact I|right]. replace f1 with (fst (copyfile f file (path_rho_model (set_rho FS r)))) by (rewrite K; reflexivity). apply copy_frame. exact N. }
  destruct o as [[]|e]; cbn [next]; [|exact T]. intros p. destruct (T p) as [H|H]; [left|rewrite <- H; apply IH; exact P'].
  destruct (alternates_same cwd root d files ds' f1 (set_rho FS r) P') as [_ (new & -> & _)]. apply housed_more. exact H.
Qed.
(** C108: each file that the preparation changes is in a directory that is there *)
Theorem C108_written {V} (zero : V) isz vint dir cwd host b names ds (f : fs V) name d root p : (forall r, root = Some r -> plain_root cwd r) ->
  let run := prepare_paper_at zero isz vint dir cwd host b names ds f name d root in housed (snd (fst run)) p \/ fst (fst run) p = f p.
Proof.
  intros PR. cbv zeta. revert p. change (tidy f (prepare_paper_at zero isz vint dir cwd host b names ds f name d root)). unfold prepare_paper_at.
  destruct (assert_id_data_is_valid d) as [[]|e]; cbn [bind]; [|right; reflexivity]. destruct (root_or_chosen paper_root host root) as [r|e] eqn:R; cbn [bind]; [|right; reflexivity].
  assert (PL : plain_root cwd r) by (destruct (root_is_ok _ _ _ _ R) as [->|(_ & _ & ->)]; [apply PR; reflexivity|apply (server_plain cwd true)]).
  destruct b; [|right; reflexivity]. destruct (new_fs cwd true ds r d 0 false) as [[FS ds']|e] eqn:N; [|discriminate]. destruct (placed_new cwd r d PL ds FS ds' N) as (P & M & _).
  assert (T : tidy f (keep ds' (paper_copy_input_at zero isz vint dir ds' f FS name))).
  { intros p. unfold keep. cbn [fst snd]. destruct (string_dec p (path_vib_model FS)) as [->|N1]; [left; rewrite (pl_vib _ _ _ _ _ P); apply (housed_v cwd r d ds' FS); [exact P|names]|].
    destruct (string_dec p (path_har_model FS)) as [->|N2]; [left; rewrite (pl_har _ _ _ _ _ P); apply (housed_v cwd r d ds' FS); [exact P|names]|].
    destruct (string_dec p (path_rho_model FS)) as [->|N3]; [left; rewrite M; apply housed_r; exact (pl_rdir _ _ _ _ _ P)|]. right.
    unfold paper_copy_input_at, writing. pose proof (copy_frame f (paper_input dir name (id_data FS)) (path_vib_model FS) p N1) as K.
    destruct (forallb (has_directory ds') [path_vib_model FS]); [|reflexivity]. destruct (copyfile f (paper_input dir name (id_data FS)) (path_vib_model FS)) as [f1 [[]|e]]; cbn [andthen fst] in *; [|exact K].
    destruct (forallb (has_directory ds') [path_har_model FS; path_rho_model FS]); [|exact K]. rewrite <- K. unfold create_basic_diagonal_model, create_harmonic_model.
    pose proof (remove_frame zero isz vint f1 (path_vib_model FS) (path_har_model FS) p N2) as K2. destruct (remove_coupling zero isz vint f1 (path_vib_model FS) (path_har_model FS)) as [f2 [[]|e]]; cbn [fst] in *; [|exact K2].
    rewrite <- K2. apply copy_frame. exact N3. }
  unfold keep in *. destruct (paper_copy_input_at zero isz vint dir ds' f FS name) as [f1 [[]|e]]; cbn [fst snd next] in *; [|exact T].
  intros p. destruct (T p) as [H|H]; cbn [fst snd] in H; [left|rewrite <- H; apply alternates_tidy with (cwd := cwd) (root := r) (d := d); exact P].
  destruct (alternates_same cwd r d (alternate_files dir names name d) ds' f1 FS P) as [_ (new & -> & _)]. apply housed_more. exact H.
Qed.
Print Assumptions C108_without.
Print Assumptions C108_written.

(** a data set with one more sampling model, below a root with nothing in it *)
Definition example_files : fs nat := fun p => if String.eqb p "/s/input_json/displaced_1.json" then Some CText else None.
Example C108_example :
  (exists e, prepare_paper_at 0 (Nat.eqb 0) (fun n => Ok (Z.of_nat n)) "/s" "/home" "laptop" true ["displaced_D1_R2.json"] [] example_files "displaced" 21 (Some "/w") =
     (fst (prepare_paper 0 (Nat.eqb 0) (fun n => Ok (Z.of_nat n)) "/s" "/home" "laptop" true ["displaced_D1_R2.json"] example_files "displaced" 21 (Some "/w")), dir_values (build_fs "/home" "/w" 21 0), Raise e) /\ e <> OSError) /\
  plain_root "/home" "/w" /\ below "/w" 21 "/w/data_set_21/rho_0/parameters/" /\
  housed (dir_values (build_fs "/home" "/w" 21 0)) "/w/data_set_21/parameters/coupled_model.json".
Proof.
  split; [exists ValueError; split; [reflexivity|discriminate]|]. split; [|split].
  - intros q [Q1 Q2]. reflexivity.
  - right. exists "rho_0/parameters/". reflexivity.
  - exists "/w/data_set_21/parameters", "coupled_model.json". split; [reflexivity|]. split; [names|reflexivity].
Qed.
