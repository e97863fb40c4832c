(** Proofs about the scripts that draw pictures. *)
From Coq Require Import QArith Permutation.
From Verif Require Import Common Common_Proofs PyStr_Model PyStr_Proofs FileName_Model FileName_Proofs Json_Model FileStruct_Model FileStruct_Proofs Results_Model Analysis_Model Plot_Model Chart_Model
  Submit_Model Submit2_Model Setup_Model Survey_Model Survey_Props Gallery_Model.
Local Open Scope string_scope.
Local Open Scope list_scope.

Lemma on_disk_none {F} (l : list (chart F)) p : on_disk l p = None <-> ~ In p (map (ch_path F) l).
Proof.
  induction l as [|c l IH]; [cbn; tauto|]. cbn. destruct (on_disk l p) eqn:E.
  - split; [discriminate|]. intros N. exfalso. apply N. right. destruct (in_dec string_dec p (map (ch_path F) l)) as [I|I]; [exact I|]. apply IH in I. discriminate.
  - destruct (String.eqb_spec (ch_path F c) p) as [->|N]; [split; [discriminate|tauto]|]. split; [intros _ [E'|I]; [congruence|apply (proj1 IH eq_refl I)]|reflexivity].
Qed.
Lemma on_disk_some {F} (l : list (chart F)) c : NoDup (map (ch_path F) l) -> (In c l <-> on_disk l (ch_path F c) = Some c).
Proof.
  intros N. split.
  - intros I. induction l as [|a l IH]; [destruct I|]. cbn in N. inversion N as [|? ? N1 N2]; subst. cbn. destruct I as [->|I].
    + apply on_disk_none in N1. rewrite N1, String.eqb_refl. reflexivity.
    + rewrite (IH N2 I). reflexivity.
  - intros E. clear N. induction l as [|a l IH]; [discriminate|]. cbn in E. destruct (on_disk l (ch_path F c)); [right; apply IH; exact E|].
    destruct (String.eqb (ch_path F a) (ch_path F c)); [|discriminate]. injection E as ->. left. reflexivity.
Qed.

Lemma hashes_keep H fs f f' r : generate_model_hashes H fs false f = (f', r) ->
  id_data f' = id_data f /\ id_rho f' = id_rho f /\ path_vib_plots f' = path_vib_plots f /\ path_rho_plots f' = path_rho_plots f.
Proof.
  unfold generate_model_hashes. destruct (has_hashes f && negb false); [intros E; injection E as <- _; auto|].
  destruct (file_hash _ _ _) as [hv|e]; [|intros E; injection E as <- _; auto]. cbn zeta.
  destruct (file_hash _ _ _) as [hr|e]; intros E; injection E as <- _; auto.
Qed.
Lemma virtual_ids H fs listing hashes a l : virtual_init H fs listing hashes a = Ok l ->
  Forall2 (fun f (x : prepared) => exists r, generate_model_hashes H fs false f = (fst (fst x), r)) (match a with OneFS f => [f] | ListFS l => l end) l.
Proof.
  unfold virtual_init. set (fl := match a with OneFS f => [f] | ListFS l => l end). clearbody fl.
  destruct (map_res (with_hashes H fs) fl) as [f1|] eqn:E1; [|discriminate]. cbn [bind].
  destruct (map_res (file_list listing hashes) f1) as [f2|] eqn:E2; [|discriminate]. cbn [bind]. intros E3.
  apply map_res_spec in E1. apply map_res_spec in E2. apply map_res_spec in E3.
  revert f2 l E2 E3. induction E1 as [|f g fl f1 G E1 IH]; intros f2 l E2 E3; inversion E2; subst; inversion E3; subst; constructor.
  - clear IH. unfold with_hashes in G. destruct (generate_model_hashes H fs false f) as [g' [|]] eqn:Q; [|discriminate]. injection G as ->.
    match goal with A : file_list _ _ g = Ok ?y, B : bind _ _ = Ok ?z |- _ => rename A into FL; rename B into PL end.
    unfold file_list in FL. destruct (hash_vib g), (hash_rho g); try discriminate. destruct (prune _ _ _ _); [|discriminate]. cbn in FL. injection FL as <-.
    cbn [fst snd] in PL. destruct (generate_parameter_lists _); [|discriminate]. cbn in PL. injection PL as <-. cbn. eexists. reflexivity.
  - eapply IH; eauto.
Qed.

Section Gallery.
  Variable F : Type.
  Variable zero : F.
  Variable of_int : Z -> res F.
  Variable of_repr : string -> F.
  Variable div : F -> F -> F.
  Variable beta : Q -> F.
  Variable sci : Z -> string.
  Variable dims : fstruct -> res (Z * Z).
  Variable H : string -> string.
  Variable fs : fsys string.
  Variable listing : string -> list string.
  Variable hashes : hashes_of.
  Variable load : prepared -> res (list (string * json) * grid F).
  Variable latex : res unit.
  Variable percent : bool.
  Notation draw_pair := (draw_pair F zero of_int of_repr div beta sci dims H fs listing hashes load latex percent).
  Notation draw_single := (draw_single F of_int div beta sci H fs listing hashes load latex).
  Notation attempt := (attempt F zero of_int of_repr div beta sci dims H fs listing hashes load latex percent).
  Notation attempts := (attempts F zero of_int of_repr div beta sci dims H fs listing hashes load latex percent).
  Notation automate_plots := (automate_plots F zero of_int of_repr div beta sci dims H fs listing hashes load latex percent).

  Lemma saved_path (r : res (chart F)) c : In c (fst (saved F r)) -> r = Ok c /\ fst (saved F r) = [c].
  Proof. destruct r as [x|e]; [|intros []]. intros [->|[]]. auto. Qed.

  Lemma pair_path a b c : In c (fst (plot_pair F zero of_int of_repr div beta sci dims latex percent a b)) ->
    fst (plot_pair F zero of_int of_repr div beta sci dims latex percent a b) = [c] /\
    ch_path F c = join (path_vib_plots (fst (fst (fst a)))) ("Z_orig_D" ++ dec (id_data (fst (fst (fst a)))) ++ "_R" ++ dec (id_rho (fst (fst (fst a)))) ++ "_R" ++ dec (id_rho (fst (fst (fst b)))) ++ ".pdf").
  Proof.
    unfold plot_pair, charts_then. destruct latex; [|intros []]. cbn [fst app]. unfold pair_Z. cbv zeta. intros I. apply saved_path in I. destruct I as [E S]. split; [exact S|].
    destruct (for_res _ _ _) as [ms|]; [|discriminate]. cbn [bind] in E. destruct (for_res _ _ _) as [ms2|]; [|discriminate]. cbn [bind] in E.
    destruct (if (10 <=? _)%Z then _ else _); [|discriminate]. cbn [bind] in E. destruct (title_of _ _); [|discriminate]. injection E as <-. reflexivity.
  Qed.

  Lemma loaded2 l l' : map_res (load_drawn F load) l = Ok l' -> Forall2 (fun (x : prepared) (y : drawn F) => fst (fst (fst y)) = fst (fst x) /\ snd (fst (fst y)) = snd x) l l'.
  Proof.
    intros E. apply map_res_spec in E. induction E as [|x y l l' E _ IH]; constructor; [|exact IH].
    unfold load_drawn in E. destruct (load x) as [og|]; [|discriminate]. injection E as <-. auto.
  Qed.

  Lemma draw_pair_path f0 fx c : In c (fst (draw_pair f0 fx)) ->
    fst (draw_pair f0 fx) = [c] /\ ch_path F c = join (path_vib_plots f0) ("Z_orig_D" ++ dec (id_data f0) ++ "_R" ++ dec (id_rho f0) ++ "_R" ++ dec (id_rho fx) ++ ".pdf").
  Proof.
    unfold Gallery_Model.draw_pair. destruct (init_pair H fs listing hashes (ListFS [f0; fx])) as [l|] eqn:I; [|intros []]. cbn [bind].
    destruct (map_res (load_drawn F load) l) as [m|] eqn:L; [|intros []]. apply loaded2 in L.
    unfold init_pair in I. cbn [List.length Nat.eqb] in I. unfold init_multiple in I. destruct (virtual_init H fs listing hashes (ListFS [f0; fx])) as [v|] eqn:V; [|discriminate]. cbn [bind] in I.
    destruct (existsb _ v); [|discriminate]. injection I as <-. apply virtual_ids in V.
    inversion V as [|? xa ? ? [ra A] V1]; subst. inversion V1 as [|? xb ? ? [rb B] V2]; subst. inversion V2; subst.
    inversion L as [|? a ? ? [La _] L1]; subst. inversion L1 as [|? b ? ? [Lb _] L2]; subst. inversion L2; subst.
    intros C. apply pair_path in C. destruct C as [C1 C2]. split; [exact C1|]. rewrite C2, La, Lb.
    apply hashes_keep in A. apply hashes_keep in B. destruct A as (-> & -> & -> & _), B as (_ & -> & _). reflexivity.
  Qed.

  Lemma test_path f p g tau key title c : plot_test F sci tau f p g key title = Ok c ->
    ch_path F c = join (path_rho_plots f) (key ++ "_D" ++ dec (id_data f) ++ "_R" ++ dec (id_rho f) ++ ".pdf").
  Proof. unfold plot_test. destruct (for_res _ _ _); [|discriminate]. cbn [bind]. intros E. injection E as <-. reflexivity. Qed.

  Lemma single_paths f p g : let P key := join (path_rho_plots f) (key ++ "_D" ++ dec (id_data f) ++ "_R" ++ dec (id_rho f) ++ ".pdf") in
    exists n, map (ch_path F) (fst (plot_Z_test F of_int div beta sci latex f p g)) = firstn n [P "Z"; P "E"; P "Cv"].
  Proof.
    cbv zeta. unfold plot_Z_test, charts_then. destruct latex; [|exists 0%nat; reflexivity]. cbn [fst snd app]. unfold test_Z, test_E, test_Cv.
    destruct (plot_test F sci _ f p g "Z" _) as [z|] eqn:Z; [|exists 0%nat; reflexivity]. cbn [saved fst snd app]. apply test_path in Z.
    destruct (plot_test F sci _ f p g "E" _) as [e|] eqn:E; [|exists 1%nat; cbn; rewrite Z; reflexivity]. cbn [saved fst snd app]. apply test_path in E.
    destruct (plot_test F sci _ f p g "Cv" _) as [v|] eqn:V; [|exists 2%nat; cbn; rewrite Z, E; reflexivity]. apply test_path in V. exists 3%nat. cbn. rewrite Z, E, V. reflexivity.
  Qed.

  Lemma draw_single_paths f : let P key := join (path_rho_plots f) (key ++ "_D" ++ dec (id_data f) ++ "_R" ++ dec (id_rho f) ++ ".pdf") in
    exists n, map (ch_path F) (fst (draw_single f)) = firstn n [P "Z"; P "E"; P "Cv"].
  Proof.
    cbv zeta. unfold Gallery_Model.draw_single. destruct (init_single H fs listing hashes (OneFS f)) as [l|] eqn:I; [|exists 0%nat; reflexivity]. cbn [bind].
    destruct (map_res (load_drawn F load) l) as [m|] eqn:L; [|exists 0%nat; reflexivity]. apply loaded2 in L. unfold init_single in I. apply virtual_ids in I.
    inversion I as [|? xa ? ? [ra A] V1]; subst. inversion V1; subst. inversion L as [|? a ? ? [La _] L1]; subst. inversion L1; subst.
    destruct (single_paths (fst (fst (fst a))) (snd (fst (fst a))) (snd a)) as [n E]. exists n. rewrite E, La. apply hashes_keep in A. destruct A as (-> & -> & _ & ->). reflexivity.
  Qed.

  (** the pictures of one attempt *)
  Definition drawn_by (s : script) (cwd root : string) (d r : Z) : list (chart F) :=
    match s with
    | PairsOf _ => fst (draw_pair (build_fs cwd root d 0) (build_fs cwd root d r))
    | SinglesOfPaper => fst (draw_single (build_fs cwd root d r))
    end.

  Lemma attempts_charts s cwd root l : forall ds,
    snd (attempts s cwd root true ds l) = flat_map (fun x => drawn_by s cwd root (fst x) (snd x)) l.
  Proof.
    induction l as [|[d r] l IH]; intros ds; [reflexivity|]. cbn [Gallery_Model.attempts flat_map fst snd].
    unfold Gallery_Model.attempt, new_fs, drawn_by. destruct s as [e|]; cbn [passert bind].
    - destruct (draw_pair _ _) as [cs o]. specialize (IH (make_directories (make_directories ds (build_fs cwd root d 0)) (build_fs cwd root d r))).
      destruct (attempts (PairsOf e) cwd root true _ l) as [ds2 cs2]. cbn in IH |- *. rewrite IH. reflexivity.
    - destruct (draw_single _) as [cs o]. specialize (IH (make_directories ds (build_fs cwd root d r))).
      destruct (attempts SinglesOfPaper cwd root true _ l) as [ds2 cs2]. cbn in IH |- *. rewrite IH. reflexivity.
  Qed.

  Lemma attempts_noroot s cwd root l : forall ds, attempts s cwd root false ds l = (ds, []).
  Proof.
    induction l as [|[d r] l IH]; intros ds; [reflexivity|]. cbn [Gallery_Model.attempts]. unfold Gallery_Model.attempt, new_fs. destruct s; cbn [passert bind]; rewrite IH; reflexivity.
  Qed.

  Lemma make_in ds f p : In p ds \/ In p (dir_values f) <-> In p (make_directories ds f).
  Proof. unfold make_directories. rewrite makedirs_all, in_app_iff. tauto. Qed.
  Lemma attempts_dirs s cwd root l : forall ds p,
    In p (fst (attempts s cwd root true ds l)) <->
    In p ds \/ exists d r, In (d, r) l /\ (In p (dir_values (build_fs cwd root d r)) \/ (s <> SinglesOfPaper /\ In p (dir_values (build_fs cwd root d 0)))).
  Proof.
    induction l as [|[d r] l IH]; intros ds p.
    - cbn. split; [auto|]. intros [I|(d & r & [] & _)]. exact I.
    - cbn [Gallery_Model.attempts]. unfold Gallery_Model.attempt, new_fs. destruct s as [e|]; cbn [passert bind].
      + destruct (draw_pair _ _) as [cs o]. specialize (IH (make_directories (make_directories ds (build_fs cwd root d 0)) (build_fs cwd root d r)) p).
        destruct (attempts (PairsOf e) cwd root true _ l) as [ds2 cs2]. cbn [fst] in IH |- *. rewrite IH, <- !make_in. split.
        * intros [[[I|I]|I]|(d' & r' & I & J)]; [left; exact I|right; exists d, r|right; exists d, r|right; exists d', r'].
          -- split; [left; reflexivity|]. right. split; [discriminate|exact I].
          -- split; [left; reflexivity|]. left. exact I.
          -- split; [right; exact I|exact J].
        * intros [I|(d' & r' & [I|I] & J)]; [tauto| |right; exists d', r'; auto]. injection I as <- <-. destruct J as [J|[_ J]]; tauto.
      + destruct (draw_single _) as [cs o]. specialize (IH (make_directories ds (build_fs cwd root d r)) p).
        destruct (attempts SinglesOfPaper cwd root true _ l) as [ds2 cs2]. cbn [fst] in IH |- *. rewrite IH, <- !make_in. split.
        * intros [[I|I]|(d' & r' & I & J)]; [left; exact I|right; exists d, r|right; exists d', r'].
          -- split; [left; reflexivity|]. left. exact I.
          -- split; [right; exact I|exact J].
        * intros [I|(d' & r' & [I|I] & J)]; [tauto| |right; exists d', r'; auto]. injection I as <- <-. destruct J as [J|[C _]]; [tauto|contradiction].
  Qed.

  (** ---- the paths ---- *)
  Definition pair_file (root : string) (d r : Z) : string := (root ++ "data_set_" ++ dec d ++ "/plots/Z_orig_D" ++ dec d ++ "_R0_R" ++ dec r ++ ".pdf")%string.
  Definition single_file (root key : string) (d r : Z) : string := (root ++ "data_set_" ++ dec d ++ "/rho_" ++ dec r ++ "/plots/" ++ key ++ "_D" ++ dec d ++ "_R" ++ dec r ++ ".pdf")%string.

  Lemma plots_join root t x : ends_with_slash root = true -> rel (t ++ "/") -> rel x -> join (join root (t ++ "/")) x = (root ++ (t ++ "/") ++ x)%string.
  Proof.
    intros S R X. assert (E : join root (t ++ "/") = (root ++ t ++ "/")%string) by (unfold join; rewrite (rel_prefix _ R), S; reflexivity).
    rewrite E. unfold join. rewrite (rel_prefix _ X).
    replace (root ++ t ++ "/")%string with ((root ++ t) ++ "/")%string by apply append_assoc. rewrite ends_slash. rewrite !append_assoc. reflexivity.
  Qed.
  Lemma drawn_paths s cwd root d r : ends_with_slash root = true ->
    exists n, map (ch_path F) (drawn_by s cwd root d r) =
      firstn n (match s with PairsOf _ => [pair_file root d r] | SinglesOfPaper => [single_file root "Z" d r; single_file root "E" d r; single_file root "Cv" d r] end).
  Proof.
    intros S. unfold drawn_by. destruct s as [e|].
    - destruct (fst (draw_pair (build_fs cwd root d 0) (build_fs cwd root d r))) as [|c l] eqn:E; [exists 0%nat; reflexivity|].
      destruct (draw_pair_path (build_fs cwd root d 0) (build_fs cwd root d r) c) as [A B]; [rewrite E; left; reflexivity|].
      rewrite E in A. injection A as ->. exists 1%nat. cbn [map firstn]. rewrite B. cbn [build_fs path_vib_plots id_data id_rho]. f_equal.
      unfold template_vib_plots, template_vib. replace (("data_set_" ++ dec d ++ "/") ++ "plots/")%string with (("data_set_" ++ dec d ++ "/plots") ++ "/")%string by (rewrite !append_assoc; reflexivity).
      rewrite plots_join by (auto; cbn; discriminate). unfold pair_file. rewrite !append_assoc. reflexivity.
    - destruct (draw_single_paths (build_fs cwd root d r)) as [n E]. exists n. rewrite E. cbn [build_fs path_rho_plots id_data id_rho].
      assert (K : forall key, rel (key ++ "_D") -> join (join root (template_rho_plots d r)) (key ++ "_D" ++ dec d ++ "_R" ++ dec r ++ ".pdf") = single_file root key d r).
      { intros key R. unfold template_rho_plots, template_rho, template_vib.
        replace ((("data_set_" ++ dec d ++ "/") ++ "rho_" ++ dec r ++ "/") ++ "plots/")%string with (("data_set_" ++ dec d ++ "/rho_" ++ dec r ++ "/plots") ++ "/")%string by (rewrite !append_assoc; reflexivity).
        rewrite plots_join; [unfold single_file; rewrite !append_assoc; reflexivity|exact S|cbn; discriminate|].
        replace (key ++ "_D" ++ dec d ++ "_R" ++ dec r ++ ".pdf")%string with ((key ++ "_D") ++ dec d ++ "_R" ++ dec r ++ ".pdf")%string by (rewrite !append_assoc; reflexivity). apply rel_app. exact R. }
      rewrite !K by (cbn; discriminate). reflexivity.
  Qed.

  Lemma pair_file_inj root d r d' r' : pair_file root d r = pair_file root d' r' -> (d, r) = (d', r').
  Proof.
    unfold pair_file. intros E. apply append_inj_l in E. apply (append_inj_l "data_set_") in E. apply (split_class is_int_char) in E; auto using dec_int_chars.
    destruct E as (E & _ & E2). apply dec_inj in E. subst d'. apply (append_inj_l "plots/Z_orig_D") in E2. apply append_inj_l in E2. apply (append_inj_l "_R0_R") in E2.
    apply (split_class is_int_char) in E2; auto using dec_int_chars. destruct E2 as (E2 & _). apply dec_inj in E2. subst. reflexivity.
  Qed.
  Lemma single_file_inj root k d r k' d' r' : In k ["Z"; "E"; "Cv"] -> In k' ["Z"; "E"; "Cv"] -> single_file root k d r = single_file root k' d' r' -> (d, r) = (d', r') /\ k = k'.
  Proof.
    intros K K'. unfold single_file. intros E. apply append_inj_l in E. apply (append_inj_l "data_set_") in E. apply (split_class is_int_char) in E; auto using dec_int_chars.
    destruct E as (E & _ & E2). apply dec_inj in E. subst d'. apply (append_inj_l "rho_") in E2. apply (split_class is_int_char) in E2; auto using dec_int_chars.
    destruct E2 as (E2 & _ & E3). apply dec_inj in E2. subst r'. split; [reflexivity|]. apply (append_inj_l "plots/") in E3.
    destruct K as [<-|[<-|[<-|[]]]], K' as [<-|[<-|[<-|[]]]]; try reflexivity; discriminate E3.
  Qed.

  Lemma firstn_in {A} n (l : list A) x : In x (firstn n l) -> In x l.
  Proof. revert n. induction l as [|a l IH]; intros [|n]; cbn; try tauto. intros [E|I]; [auto|right; eapply IH; eauto]. Qed.
  Lemma firstn_nodup {A} n (l : list A) : NoDup l -> NoDup (firstn n l).
  Proof. revert n. induction l as [|a l IH]; intros [|n] N; cbn; try constructor; inversion N; subst; auto. intros I. apply firstn_in in I. contradiction. Qed.

  Lemma drawn_inj s cwd root d r d' r' c c' : ends_with_slash root = true -> In c (drawn_by s cwd root d r) -> In c' (drawn_by s cwd root d' r') -> ch_path F c = ch_path F c' -> (d, r) = (d', r').
  Proof.
    intros S I I' E. apply (in_map (ch_path F)) in I, I'. destruct (drawn_paths s cwd root d r S) as [n P]. destruct (drawn_paths s cwd root d' r' S) as [n' P'].
    rewrite P in I. rewrite P' in I'. apply firstn_in in I, I'. rewrite E in I. destruct s as [e|].
    - destruct I as [I|[]], I' as [I'|[]]. eapply pair_file_inj. rewrite I, I'. reflexivity.
    - assert (K : forall d r p, In p [single_file root "Z" d r; single_file root "E" d r; single_file root "Cv" d r] -> exists k, In k ["Z"; "E"; "Cv"] /\ p = single_file root k d r) by (intros ? ? p X; cbn in X; destruct X as [<-|[<-|[<-|[]]]]; eexists; (split; [|reflexivity]); cbn; tauto).
      destruct (K _ _ _ I) as (k & K1 & E1). destruct (K _ _ _ I') as (k' & K2 & E2). rewrite E1 in E2. apply single_file_inj in E2; tauto.
  Qed.
  Lemma drawn_nodup s cwd root d r : ends_with_slash root = true -> NoDup (map (ch_path F) (drawn_by s cwd root d r)).
  Proof.
    intros S. destruct (drawn_paths s cwd root d r S) as [n ->]. apply firstn_nodup. destruct s as [e|]; [repeat constructor; intros []|].
    assert (N : forall k k', In k ["Z"; "E"; "Cv"] -> In k' ["Z"; "E"; "Cv"] -> k <> k' -> single_file root k d r <> single_file root k' d r) by (intros k k' A B C E; apply single_file_inj in E; tauto).
    repeat constructor; cbn [In]; intros I; repeat (destruct I as [I|I]; [symmetry in I; revert I; apply N; cbn; auto; discriminate|]); exact I.
  Qed.
  Lemma all_nodup s cwd root l : ends_with_slash root = true -> NoDup l -> NoDup (map (ch_path F) (flat_map (fun x => drawn_by s cwd root (fst x) (snd x)) l)).
  Proof.
    intros S. induction l as [|[d r] l IH]; intros N; [constructor|]. inversion N as [|? ? N1 N2]; subst. cbn [flat_map fst snd]. rewrite map_app.
    assert (A := drawn_nodup s cwd root d r S). specialize (IH N2).
    assert (D : forall p, In p (map (ch_path F) (drawn_by s cwd root d r)) -> ~ In p (map (ch_path F) (flat_map (fun x => drawn_by s cwd root (fst x) (snd x)) l))).
    { intros p I J. apply in_map_iff in I, J. destruct I as (c & E1 & I), J as (c' & E2 & J). apply in_flat_map in J. destruct J as ((d' & r') & J1 & J2).
      apply N1. rewrite (drawn_inj s cwd root d r d' r' c c' S I J2); [exact J1|congruence]. }
    revert A D. generalize (map (ch_path F) (drawn_by s cwd root d r)) as k. induction k as [|a k IHk]; intros A D; [exact IH|]. inversion A; subst. cbn. constructor.
    - rewrite in_app_iff. intros [I|I]; [contradiction|]. apply (D a); [left; reflexivity|exact I].
    - apply IHk; [assumption|]. intros p I. apply D. right. exact I.
  Qed.
End Gallery.

Fixpoint distinct (l : list (Z * Z)) : bool :=
  match l with [] => true | x :: l' => negb (existsb (fun y => (fst x =? fst y)%Z && (snd x =? snd y)%Z) l') && distinct l' end.
Lemma distinct_nodup l : distinct l = true -> NoDup l.
Proof.
  induction l as [|x l IH]; intros E; [constructor|]. cbn in E. apply andb_true_iff in E. destruct E as [E1 E2]. constructor; [|auto].
  intros I. apply negb_true_iff in E1. enough (existsb (fun y => (fst x =? fst y)%Z && (snd x =? snd y)%Z) l = true) by congruence.
  apply existsb_exists. exists x. rewrite !Z.eqb_refl. auto.
Qed.
Lemma pairs_distinct e : NoDup (flat_map (survey_pairs e) (ex_names e)).
Proof. apply distinct_nodup. destruct e; vm_compute; reflexivity. Qed.
