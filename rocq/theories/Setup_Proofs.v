(** Proofs about the preparation of the models: names of files and the copying
    of the sampling models. *)
From Coq Require Import Reals.
From Verif Require Import Common Common_Proofs PyStr_Model PyStr_Proofs FileName_Model FileName_Proofs Json_Model Arr_Model ModelIO_Model ModelIO_Spec ModelIO_Proofs ModelIO2_Proofs
  Create_Model Point_Model Point_Spec Point_Proofs FileStruct_Model FileStruct_Proofs Submit_Model Submit2_Model Setup_Model Setup_Spec.
Local Open Scope string_scope.
Local Open Scope nat_scope.

(** ---- names ---- *)
Lemma relative_rel p : relative p <-> rel p.
Proof.
  unfold relative, rel. destruct p as [|c p]; [split; [intros [H _]; congruence|tauto]|].
  cbn [String.prefix]. destruct (ascii_dec "/" c) as [E|E].
  - subst c. replace (String.prefix "" p) with true by (destruct p; reflexivity). split; [intros [_ H]; discriminate|congruence].
  - split; [intros _ H; congruence|intros _; split; [discriminate|reflexivity]].
Qed.
Lemma template_params d x : (template_vib d ++ ("parameters/" ++ x)) = params_of d x.
Proof. unfold template_vib, params_of. rewrite !append_assoc. reflexivity. Qed.
Lemma params_rel d x : rel (params_of d x).
Proof. simpl. discriminate. Qed.
Lemma params_name_inj d d' x y : params_of d x = params_of d' y -> d = d' /\ x = y.
Proof.
  rewrite <- !template_params. intros H. apply template_vib_inj in H. destruct H as [-> H]. split; auto. apply append_inj_l in H. exact H.
Qed.
Lemma rho_tail d r : ("data_set_" ++ dec d ++ "/rho_" ++ dec r ++ "/parameters/sampling_model.json") = (template_rho d r ++ "parameters/sampling_model.json").
Proof. unfold template_rho, template_vib. rewrite !append_assoc. reflexivity. Qed.

Section Paths.
  Variables (cwd root : string) (d : Z).
  Let FS := build_fs cwd root d 0.
  Lemma vib_path x : join (join root (template_vib_params d)) x = join root (params_of d x) \/ ~ rel x.
  Proof.
    destruct x as [|c x]; [right; simpl; tauto|]. destruct (ascii_dec c "/") as [->|N]; [right; simpl; congruence|]. left.
    unfold template_vib_params. change "parameters/" with ("parameters" ++ "/"). rewrite join_sub; [|exact (rel_vib d _)|exact N].
    change ("parameters" ++ "/" ++ String c x) with ("parameters/" ++ String c x). rewrite template_params. reflexivity.
  Qed.
  Lemma vib_path_of x c t : x = String c t -> c <> "/"%char -> join (join root (template_vib_params d)) x = join root (params_of d x).
  Proof. intros -> N. destruct (vib_path (String c t)) as [H|H]; [exact H|]. exfalso. apply H. exact N. Qed.
  Lemma FS_vib : path_vib_model FS = vib_of root d. Proof. apply (vib_path_of _ "c" "oupled_model.json"); [reflexivity|discriminate]. Qed.
  Lemma FS_har : path_har_model FS = har_of root d. Proof. apply (vib_path_of _ "h" "armonic_model.json"); [reflexivity|discriminate]. Qed.
  Lemma FS_iter : path_iter_model FS = iter_of root d. Proof. apply (vib_path_of _ "i" "terative_model.json"); [reflexivity|discriminate]. Qed.
  Lemma FS_orig : path_orig_model FS = orig_of root d. Proof. apply (vib_path_of _ "o" "riginal_coupled_model.json"); [reflexivity|discriminate]. Qed.
  Lemma FS_ortho : path_ortho_mat FS = ortho_of root d. Proof. apply (vib_path_of _ "o" "rthogonal_matrix.npy"); [reflexivity|discriminate]. Qed.
  Lemma rho_path rt r : join (join rt (template_rho_params d r)) "sampling_model.json" = rho_of rt d r.
  Proof.
    unfold rho_of. rewrite rho_tail. unfold template_rho_params. change "parameters/" with ("parameters" ++ "/"). rewrite join_sub; [reflexivity|exact (rel_rho d r _)|discriminate].
  Qed.
  Lemma FS_rho0 : path_rho_model FS = rho_of root d 0. Proof. apply rho_path. Qed.
End Paths.

(** equal up to the attributes of the sampling model *)
Record same_set (cwd root : string) (d : Z) (FS : fstruct) : Prop := {
  ss_d : id_data FS = d; ss_root : path_root FS = abspath cwd root;
  ss_vib : path_vib_model FS = vib_of root d; ss_har : path_har_model FS = har_of root d;
  ss_iter : path_iter_model FS = iter_of root d; ss_orig : path_orig_model FS = orig_of root d; ss_ortho : path_ortho_mat FS = ortho_of root d }.
Lemma same_set_build cwd root d : same_set cwd root d (build_fs cwd root d 0).
Proof. constructor; try reflexivity; auto using FS_vib, FS_har, FS_iter, FS_orig, FS_ortho. Qed.
Lemma same_set_rho cwd root d FS r : same_set cwd root d FS -> same_set cwd root d (set_rho FS r) /\ path_rho_model (set_rho FS r) = rho_of (abspath cwd root) d r.
Proof.
  intros []. split; [constructor; assumption|]. cbn [set_rho path_rho_model]. rewrite ss_root0, ss_d0. apply rho_path.
Qed.

(** the root, given as an absolute path without "." or ".." *)
Lemma plain_rho cwd root d r : plain_root cwd root -> rho_of (abspath cwd root) d r = rho_of root d r.
Proof. intros P. unfold rho_of. apply P. apply relative_rel. simpl. discriminate. Qed.

(** ---- distinctness ---- *)
Lemma params_inj root d d' x y : join root (params_of d x) = join root (params_of d' y) -> d = d' /\ x = y.
Proof. intros H. apply join_rel_inj in H; [|apply params_rel|apply params_rel]. apply params_name_inj in H. exact H. Qed.
Lemma rho_inj root d d' r r' : rho_of root d r = rho_of root d' r' -> d = d' /\ r = r'.
Proof.
  unfold rho_of. rewrite !rho_tail. intros H. apply join_rel_inj in H; [|exact (rel_rho d r _)|exact (rel_rho d' r' _)]. apply template_rho_inj in H. tauto.
Qed.
Lemma rho_params root d d' r x : rho_of root d r <> join root (params_of d' x).
Proof.
  unfold rho_of. rewrite rho_tail. intros H. apply join_rel_inj in H; [|exact (rel_rho d r _)|apply params_rel].
  rewrite <- template_params in H. unfold template_rho in H. rewrite append_assoc in H. apply template_vib_inj in H. destruct H as [_ H]. discriminate.
Qed.
Ltac apart_names :=
  solve [ match goal with |- ?a <> ?b =>
    let E := fresh in intros E;
    first [ apply rho_params in E; exact E
          | symmetry in E; apply rho_params in E; exact E
          | apply rho_inj in E; destruct E; (congruence || lia)
          | apply params_inj in E; destruct E; (discriminate || congruence) ] end ].

(** ---- the alternative sampling models ---- *)
Lemma string_drop k t : k <= String.length t -> exists a b, t = a ++ b /\ String.length a = k.
Proof.
  revert t. induction k as [|k IH]; intros t H; [exists "", t; auto|]. destruct t as [|c t]; [cbn in H; lia|]. cbn in H.
  destruct (IH t) as (a & b & -> & L); [lia|]. exists (String c a), b. cbn. auto.
Qed.
Lemma glob_star_inv pre suf n : glob_star pre suf n = true -> exists x, n = pre ++ x ++ suf.
Proof.
  unfold glob_star. rewrite !andb_true_iff. intros [[H1 H2] H3]. apply prefix_true in H1. destruct H1 as [t ->]. apply Nat.leb_le in H2. apply String.eqb_eq in H3.
  rewrite append_length in *. destruct (string_drop (String.length t - String.length suf) t) as (a & b & -> & L); [lia|]. rewrite append_length in *.
  exists a. f_equal. f_equal. rewrite <- append_assoc in H3.
  replace (String.length pre + (String.length a + String.length b) - String.length suf) with (String.length (pre ++ a)) in H3 by (rewrite append_length; lia).
  replace (String.length suf) with (String.length b) in H3 at 1 by lia. rewrite substring_suffix in H3. exact H3.
Qed.
Lemma prefix_slash_app n s : String.prefix "/" n = false -> n <> "" -> String.prefix "/" (n ++ s) = false.
Proof.
  destruct n as [|c n]; [congruence|]. intros H _. cbn [String.append String.prefix] in *. destruct (ascii_dec "/" c); [|reflexivity].
  destruct n; cbn in H; discriminate.
Qed.
Lemma alternate_rel name d x : String.prefix "/" name = false -> rel (alternate_name name d x).
Proof.
  intros H. apply relative_rel. unfold alternate_name. destruct name as [|c n]; [split; [discriminate|reflexivity]|].
  split; [discriminate|]. apply (prefix_slash_app (String c n)); [exact H|discriminate].
Qed.
Lemma join_two dir a n : rel a -> rel n -> ends_with_slash (join dir a) = false -> join (join dir a) n = join dir (a ++ "/" ++ n).
Proof.
  intros A N E. rewrite (join_rel (join dir a)) by auto using rel_prefix. rewrite E. rewrite join_app by exact A. reflexivity.
Qed.
Lemma ends_slash_app a c : ends_with_slash (a ++ String c "") = Ascii.eqb c "/".
Proof.
  unfold ends_with_slash. rewrite append_length, Nat.add_comm. cbn [String.length Nat.add].
  replace (String.get (String.length a) (a ++ String c "")) with (Some c); [reflexivity|]. induction a; cbn; auto.
Qed.
Lemma join_input dir n : rel n -> join (join dir "input_json") n = join dir ("input_json/" ++ n).
Proof.
  intros N. rewrite join_two; [reflexivity|discriminate|exact N|].
  rewrite join_rel by reflexivity. change "input_json" with ("input_jso" ++ "n"). rewrite <- !append_assoc. rewrite ends_slash_app. reflexivity.
Qed.
Lemma join_alternate dir n : rel n -> join (join dir "alternate_rhos") n = join dir ("alternate_rhos/" ++ n).
Proof.
  intros N. rewrite join_two; [reflexivity|discriminate|exact N|].
  rewrite join_rel by reflexivity. change "alternate_rhos" with ("alternate_rho" ++ "s"). rewrite <- !append_assoc. rewrite ends_slash_app. reflexivity.
Qed.

Lemma alternate_id_ok dir name d r : contains "_R" dir = false -> contains "_R" name = false -> String.prefix "/" name = false ->
  alternate_id (alternate_of dir name d r) = Ok r.
Proof.
  intros CD CN PN. unfold alternate_id, alternate_of. rewrite join_rel by reflexivity. unfold alternate_name.
  set (sl := if ends_with_slash dir then "" else "/").
  replace (dir ++ sl ++ "alternate_rhos/" ++ name ++ "_D" ++ dec (d mod 10) ++ "_R" ++ dec r ++ ".json")
    with ((dir ++ (sl ++ "alternate_rhos/") ++ name ++ "_D" ++ dec (d mod 10)) ++ "_R" ++ dec r ++ ".json" ++ "") by (rewrite !append_assoc; reflexivity).
  rewrite between_ok.
  - cbn [bind]. apply py_int_dec.
  - discriminate.
  - discriminate.
  - assert (SL : sl = "" \/ sl = "/") by (unfold sl; destruct (ends_with_slash dir); auto).
    apply no_start_app.
    { rewrite <- (append_nil_r dir). apply (no_start_two "_" "R"); [discriminate|exact CD| |reflexivity|exact Logic.I]. destruct SL as [->| ->]; discriminate. }
    apply no_start_app.
    { destruct SL as [->| ->]; repeat (constructor; [try reflexivity|]); try constructor. }
    apply no_start_app.
    { rewrite <- (append_nil_r name). apply (no_start_two "_" "R"); [discriminate|exact CN|discriminate|reflexivity|exact Logic.I]. }
    apply (no_start_app _ _ "_D"); [constructor; [reflexivity|constructor; [reflexivity|constructor]]|].
    apply (no_start_char "_" "R"), num_no_char; auto using dec_num_chars.
  - exists "". split.
    + apply split_none_item; [discriminate|]. apply no_start_app; [apply (no_start_char "_" "R"), num_no_char; auto using dec_num_chars|].
      repeat (constructor; [reflexivity|]). constructor.
    + assert (I : all_chars is_int_char (dec r) = true) by apply dec_int_chars. apply (no_start_char "." "json").
      revert I. apply all_chars_impl. intros c Hc. apply negb_true_iff, Ascii.eqb_neq. intros ->. discriminate.
Qed.

Section Copies.
  Context {V : Type}.
  Variables (cwd root : string) (d : Z).
  Let rho r := rho_of (abspath cwd root) d r.
  Lemma copies l : forall (f : fs V) FS, same_set cwd root d FS ->
    (forall file, In file l -> (exists r, alternate_id file = Ok r) /\ (exists c, f file = Some c) /\ forall r, file <> rho r) ->
    exists f', copy_alternates f FS l = (f', Ok tt) /\
      (forall p, (forall file r, In file l -> alternate_id file = Ok r -> p <> rho r) -> f' p = f p) /\
      (forall r, (exists file, In file l /\ alternate_id file = Ok r) -> exists file, In file l /\ alternate_id file = Ok r /\ f' (rho r) = f file).
  Proof.
    induction l as [|file l IH]; intros f FS SS H.
    - exists f. split; [reflexivity|]. split; [reflexivity|]. intros r (x & [] & _).
    - destruct (H file (or_introl eq_refl)) as ([r E] & [c C] & NR). cbn [copy_alternates]. rewrite E.
      destruct (same_set_rho cwd root d FS r SS) as [SS' PR]. rewrite PR. unfold copyfile. rewrite C.
      destruct (String.eqb_spec file (rho_of (abspath cwd root) d r)) as [X|X]; [exfalso; exact (NR r X)|]. cbn [andthen].
      assert (KEEP : forall p, p <> rho r -> fs_write f (rho r) c p = f p) by (intros p N; unfold fs_write; destruct (String.eqb_spec p (rho r)); [contradiction|reflexivity]).
      destruct (IH (fs_write f (rho r) c) (set_rho FS r) SS') as (f' & R & O & W).
      { intros x Hx. destruct (H x (or_intror Hx)) as (A & (cx & B) & N). split; [exact A|]. split; [|exact N]. exists cx. rewrite KEEP by apply N. exact B. }
      exists f'. split; [exact R|]. split.
      + intros p Hp. rewrite O by (intros x k Hx; apply Hp; right; exact Hx). apply KEEP. apply (Hp file); [left; reflexivity|exact E].
      + intros k (x & Hx & Ex).
        assert (T : (exists y, In y l /\ alternate_id y = Ok k) \/ ~ exists y, In y l /\ alternate_id y = Ok k).
        { clear - V. induction l as [|y l IHl]; [right; intros (y & [] & _)|]. destruct IHl as [(z & Hz & Ez)|N]; [left; exists z; split; [right; exact Hz|exact Ez]|].
          destruct (alternate_id y) as [v|] eqn:Ey.
          - destruct (Z.eq_dec v k) as [->|D]; [left; exists y; split; [left; reflexivity|exact Ey]|].
            right. intros (z & [<-|Hz] & Ez); [congruence|]. apply N. exists z. auto.
          - right. intros (z & [<-|Hz] & Ez); [congruence|]. apply N. exists z. auto. }
        destruct T as [T|T].
        * destruct (W k T) as (y & Hy & Ey & Fy). exists y. split; [right; exact Hy|]. split; [exact Ey|]. rewrite Fy. apply KEEP. apply (H y (or_intror Hy)).
        * destruct Hx as [<-|Hx]; [|exfalso; apply T; exists x; auto]. rewrite E in Ex. injection Ex as <-. exists file. split; [left; reflexivity|]. split; [exact E|].
          rewrite O. { unfold fs_write. rewrite String.eqb_refl. symmetry. exact C. }
          intros y k Hy Ey K. apply rho_inj in K. destruct K as [_ <-]. apply T. exists y. auto.
  Qed.
End Copies.

Lemma alternate_files_In dir names name d file : String.prefix "/" name = false ->
  (In file (alternate_files dir names name d) <-> exists x, In (alternate_name name d x) names /\ file = join dir ("alternate_rhos/" ++ alternate_name name d x)).
Proof.
  intros PN. unfold alternate_files. rewrite in_map_iff. split.
  - intros (n & <- & H). apply filter_In in H. destruct H as [H G]. apply glob_star_inv in G. destruct G as [x ->]. exists x.
    replace ((name ++ "_D" ++ dec (d mod 10) ++ "_R") ++ x ++ ".json") with (alternate_name name d x) in * by (unfold alternate_name; rewrite !append_assoc; reflexivity).
    split; [exact H|]. apply join_alternate. apply alternate_rel. exact PN.
  - intros (x & H & ->). exists (alternate_name name d x). split; [apply join_alternate; apply alternate_rel; exact PN|]. apply filter_In. split; [exact H|].
    replace (alternate_name name d x) with ((name ++ "_D" ++ dec (d mod 10) ++ "_R") ++ x ++ ".json") by (unfold alternate_name; rewrite !append_assoc; reflexivity).
    apply glob_star_ok.
Qed.

(** ---- contents of files ---- *)
Section Contents.
  Context {V : Type}.
  Variable zero : V.
  Variable isz : V -> bool.
  Variable vint : V -> res Z.

  Lemma load_at k (f : fs V) p c : f p = Some c -> load_new zero vint k f p = load_new zero vint k (fun _ => Some c) "".
  Proof. intros H. unfold load_new, load_raw, read_json. rewrite H. reflexivity. Qed.
  Lemma unique_at (f : fs V) p c : f p = Some c -> (forall o, c = CJson o -> NoDup (map fst o)) -> forall o, f p = Some (CJson o) -> NoDup (map fst o).
  Proof. intros H N o E. rewrite H in E. injection E as E. apply N. exact E. Qed.
  Lemma saved_exists k (f f' : fs V) p m : save isz vint k f p m = (f', Ok tt) -> exists c, f' p = Some c.
  Proof.
    unfold save, save_raw. destruct (verify vint k m); [|discriminate]. destruct (dumps _); [|discriminate]. intros [= <-].
    unfold fs_write. rewrite String.eqb_refl. eauto.
  Qed.

  Lemma remove_at (f : fs V) src dst c A N m : f src = Some c -> coupled_file zero vint c A N m ->
    exists f' c', remove_coupling zero isz vint f src dst = (f', Ok tt) /\ f' dst = Some c' /\ diagonal_file zero isz vint c A N c' /\ (forall q, q <> dst -> f' q = f q).
  Proof.
    intros S (U & L & Va). destruct (@remove_coupling_correct V zero isz vint (fun _ => zero) f src dst m A N (unique_at f src c S U)) as (f' & dd & R & O & V' & D & SV); auto.
    { rewrite (load_at _ _ _ _ S). exact L. }
    destruct (saved_exists _ _ _ _ _ SV) as [c' C]. exists f', c'. split; [exact R|]. split; [exact C|]. split; [|exact O].
    exists m, dd. split; [split; auto|]. split; [exact D|]. split; [exact V'|]. exists f, dst, f'. auto.
  Qed.
  Lemma basic_at (f : fs V) vib har rho c A N m : f vib = Some c -> har <> rho -> coupled_file zero vint c A N m ->
    exists f' c', create_basic_diagonal_model zero isz vint f vib har rho = (f', Ok tt) /\ f' har = Some c' /\ f' rho = Some c' /\ diagonal_file zero isz vint c A N c' /\
      (forall q, q <> har -> q <> rho -> f' q = f q).
  Proof.
    intros S NE (U & L & Va). destruct (@create_basic_diagonal_correct V zero isz vint (fun _ => zero) f vib har rho m A N (unique_at f vib c S U) NE) as (f1 & f' & dd & R & D & V' & SV & H1 & H2 & O); auto.
    { rewrite (load_at _ _ _ _ S). exact L. }
    destruct (saved_exists _ _ _ _ _ SV) as [c' C]. exists f', c'. split; [exact R|]. split; [congruence|]. split; [congruence|]. split; [|exact O].
    exists m, dd. split; [split; auto|]. split; [exact D|]. split; [exact V'|]. exists f, har, f1. auto.
  Qed.
  Lemma copy_at (f : fs V) src dst c : f src = Some c -> src <> dst -> copyfile f src dst = (fs_write f dst c, Ok tt).
  Proof. intros S N. unfold copyfile. rewrite S. destruct (String.eqb_spec src dst); [contradiction|reflexivity]. Qed.
  Lemma write_same (f : fs V) p c : fs_write f p c p = Some c.
  Proof. unfold fs_write. rewrite String.eqb_refl. reflexivity. Qed.
  Lemma write_other (f : fs V) p c q : q <> p -> fs_write f p c q = f q.
  Proof. intros N. unfold fs_write. destruct (String.eqb_spec q p); [contradiction|reflexivity]. Qed.
End Contents.

(** ---- the models of the paper ---- *)
Lemma chosen_ok server_root host root r : chosen server_root host root r -> root_or_chosen server_root host root = Ok r.
Proof.
  intros [->|(-> & H & ->)]; [reflexivity|]. cbn [root_or_chosen]. unfold choose_root.
  destruct H as [<-|[<-|[]]]; reflexivity.
Qed.
Lemma valid_ids_spec d : assert_id_data_is_valid d = Ok tt <-> exists name, in_paper name d.
Proof.
  unfold assert_id_data_is_valid, passert. destruct (existsb (Z.eqb d) valid_ids) eqn:E.
  - split; [intros _|reflexivity]. apply existsb_exists in E. destruct E as (x & H & X). apply Z.eqb_eq in X. subst x. unfold in_paper. cbn in H.
    destruct (Z.le_gt_cases d 16); [exists "superimposed"; left; split; [reflexivity|lia]|].
    destruct (Z.le_gt_cases d 26); [exists "displaced"; right; left; split; [reflexivity|lia]|].
    destruct (Z.le_gt_cases d 36); [exists "elevated"; right; right; left; split; [reflexivity|lia]|].
    exists "jahnteller"; right; right; right; split; [reflexivity|lia].
  - split; [discriminate|]. intros (name & H). exfalso. apply not_true_iff_false in E. apply E. apply existsb_exists. exists d. split; [|apply Z.eqb_refl].
    assert (R : (11 <= d <= 16 \/ 21 <= d <= 26 \/ 31 <= d <= 36 \/ 41 <= d <= 46)%Z) by (unfold in_paper in H; lia).
    cbn. lia.
Qed.

Section Prepare.
  Context {V : Type}.
  Variable zero : V.
  Variable isz : V -> bool.
  Variable vint : V -> res Z.

  Theorem prepare_ok dir cwd host names (f : fs V) name d root r rs :
    (exists n, in_paper n d) -> chosen "/work/ngraymon/pimc/paper_2018/" host root r -> plain_root cwd r -> apart dir r ->
    contains "_R" dir = false -> contains "_R" name = false -> String.prefix "/" name = false ->
    provided zero vint f dir names name d rs ->
    exists f', prepare_paper zero isz vint dir cwd host true names f name d root = (f', Ok tt) /\
      prepared zero isz vint f f' dir r name d rs /\ (forall p, ~ written r d rs p -> f' p = f p).
  Proof.
    intros VD CH PL AP CD CN PN (OF & (c & A & N & m & IN & CF) & AL). unfold prepare_paper. rewrite (proj2 (valid_ids_spec d) VD). cbn [bind].
    rewrite (chosen_ok paper_root host root r CH). cbn [bind new_fs passert fst].
    pose proof (same_set_build cwd r d) as SS. pose proof SS as [s1 s2 s3 s4 s5 s6 s7]. pose proof (FS_rho0 cwd r d) as R0.
    set (FS := build_fs cwd r d 0) in *. unfold paper_copy_input. rewrite s1, s3, s4, R0.
    assert (II : paper_input dir name d = input_of dir name d).
    { unfold paper_input, input_of. apply join_input. destruct name as [|x n]; [simpl; discriminate|]. apply (rel_app (String x n)). apply relative_rel. split; [discriminate|exact PN]. }
    rewrite II.
    assert (SRC : forall q, relative q -> input_of dir name d <> join r q).
    { intros q Q. unfold input_of. apply AP; [split; [discriminate|reflexivity]|exact Q]. }
    assert (SRA : forall k q, relative q -> alternate_of dir name d k <> join r q).
    { intros k q Q. unfold alternate_of. apply AP; [split; [discriminate|reflexivity]|exact Q]. }
    assert (RP : forall x, relative (params_of d x)) by (intros x; apply relative_rel, params_rel).
    assert (RR : forall k, relative ("data_set_" ++ dec d ++ "/rho_" ++ dec k ++ "/parameters/sampling_model.json")) by (intros k; split; [discriminate|reflexivity]).
    rewrite (copy_at f _ (vib_of r d) c IN) by (apply SRC, RP). cbn [andthen].
    set (f1 := fs_write f (vib_of r d) c).
    destruct (basic_at zero isz vint f1 (vib_of r d) (har_of r d) (rho_of r d 0) c A N m) as (f2 & c' & B & H1 & H2 & DF & O2); [apply write_same|apart_names|exact CF|].
    rewrite B. cbn [andthen].
    assert (KEEP : forall p, p <> vib_of r d -> p <> har_of r d -> p <> rho_of r d 0 -> f2 p = f p).
    { intros p N1 N2 N3. rewrite O2 by assumption. apply write_other. exact N1. }
    assert (ALN : forall file, In file (alternate_files dir names name d) -> exists k, In k rs /\ file = alternate_of dir name d k).
    { intros file Hf. apply (alternate_files_In dir names name d file PN) in Hf. destruct Hf as (x & Hx & ->). apply OF in Hx. destruct Hx as (k & Hk & ->). exists k. auto. }
    assert (ALI : forall k, In k rs -> In (alternate_of dir name d k) (alternate_files dir names name d)).
    { intros k Hk. apply (alternate_files_In dir names name d _ PN). exists (dec k). split; [apply OF; exact Hk|reflexivity]. }
    destruct (copies cwd r d (alternate_files dir names name d) f2 FS SS) as (f' & CA & O & W).
    { intros file Hf. destruct (ALN file Hf) as (k & Hk & ->). split; [exists k; apply alternate_id_ok; assumption|]. split.
      - destruct (AL k Hk) as [ck Ck]. exists ck. rewrite KEEP; [exact Ck|apply SRA, RP|apply SRA, RP|apply SRA, RR].
      - intros k'. rewrite plain_rho by exact PL. apply SRA, RR. }
    exists f'. split; [exact CA|].
    assert (OUT : forall p, (forall k, In k rs -> p <> rho_of r d k) -> f' p = f2 p).
    { intros p Hp. apply O. intros file k Hf E. destruct (ALN file Hf) as (k' & Hk & ->). rewrite alternate_id_ok in E by assumption. injection E as <-.
      rewrite plain_rho by exact PL. apply Hp. exact Hk. }
    split.
    - split. { rewrite OUT by (intros; apart_names). rewrite O2 by apart_names. rewrite IN. apply write_same. }
      split.
      + exists c, c', A, N. split; [exact IN|]. split. { rewrite OUT by (intros; apart_names). exact H1. }
        split; [exact DF|]. intros N0. rewrite OUT; [exact H2|]. intros k Hk E. apply rho_inj in E. destruct E as [_ <-]. exact (N0 Hk).
      + intros k Hk. rewrite <- (plain_rho cwd r d k PL).
        destruct (W k) as (file & Hf & E & F); [exists (alternate_of dir name d k); split; [apply ALI; exact Hk|apply alternate_id_ok; assumption]|].
        rewrite F. destruct (ALN file Hf) as (k' & Hk' & ->). rewrite alternate_id_ok in E by assumption. injection E as ->.
        apply KEEP; [apply SRA, RP|apply SRA, RP|apply SRA, RR].
    - unfold written. intros p NW. rewrite OUT by (intros k Hk ->; apply NW; right; right; right; exists k; auto). apply KEEP; intros ->; apply NW; auto.
  Qed.

  (** what is written lies below the root *)
  Lemma written_below r d rs p : written r d rs p -> exists q, relative q /\ p = join r q.
  Proof.
    assert (RP : forall x, relative (params_of d x)) by (intros x; apply relative_rel, params_rel).
    assert (RR : forall k, relative ("data_set_" ++ dec d ++ "/rho_" ++ dec k ++ "/parameters/sampling_model.json")) by (intros k; split; [discriminate|reflexivity]).
    intros [->|[->|[->|(k & _ & ->)]]]; eexists; (split; [|reflexivity]); auto.
  Qed.
  Lemma written_set r d d' rs rs' p : written r d rs p -> written r d' rs' p -> d = d'.
  Proof.
    intros [->|[->|[->|(k & _ & ->)]]] [E|[E|[E|(k' & _ & E)]]];
      first [ apply rho_inj in E; tauto | apply params_inj in E; tauto | apply rho_params in E; contradiction | symmetry in E; apply rho_params in E; contradiction ].
  Qed.
  Lemma not_written_source dir name d0 k r d rs : apart dir r -> ~ written r d rs (input_of dir name d0) /\ ~ written r d rs (alternate_of dir name d0 k).
  Proof.
    intros AP. split; intros W; apply written_below in W; destruct W as (q & Q & E); revert E; apply AP; try exact Q; split; try discriminate; reflexivity.
  Qed.

  Theorem prepare_all_ok dir cwd host names rs l r : forall (f : fs V), NoDup (map snd l) ->
    chosen "/work/ngraymon/pimc/paper_2018/" host None r -> plain_root cwd r -> apart dir r -> contains "_R" dir = false ->
    (forall name d, In (name, d) l -> (exists n, in_paper n d) /\ contains "_R" name = false /\ String.prefix "/" name = false /\ provided zero vint f dir names name d (rs d)) ->
    exists f', prepare_all zero isz vint dir cwd host true names f l = (f', Ok tt) /\
      (forall name d, In (name, d) l -> prepared zero isz vint f f' dir r name d (rs d)) /\
      (forall p, (forall name d, In (name, d) l -> ~ written r d (rs d) p) -> f' p = f p).
  Proof.
    induction l as [|[name d] l IH]; intros f ND CH PL AP CD H.
    - exists f. split; [reflexivity|]. split; [intros ? ? []|reflexivity].
    - destruct (H name d (or_introl eq_refl)) as (H1 & H2 & H3 & H4).
      destruct (prepare_ok dir cwd host names f name d None r (rs d)) as (f1 & R1 & P1 & O1); auto.
      cbn [prepare_all]. rewrite R1. cbn [andthen]. cbn [map snd] in ND. inversion ND as [|? ? NI ND']. subst.
      assert (SRC : forall n' d' k, f1 (input_of dir n' d') = f (input_of dir n' d') /\ f1 (alternate_of dir n' d' k) = f (alternate_of dir n' d' k)).
      { intros n' d' k. destruct (not_written_source dir n' d' k r d (rs d) AP) as [X1 X2]. split; apply O1; assumption. }
      destruct (IH f1 ND' CH PL AP CD) as (f' & R & P & O).
      { intros n' d' Hn. destruct (H n' d' (or_intror Hn)) as (G1 & G2 & G3 & (G4 & (c & A & N & m & G5 & G6) & G7)). split; [exact G1|]. split; [exact G2|]. split; [exact G3|].
        split; [exact G4|]. split.
        - exists c, A, N, m. split; [|exact G6]. rewrite (proj1 (SRC n' d' 0%Z)). exact G5.
        - intros k Hk. rewrite (proj2 (SRC n' d' k)). apply G7. exact Hk. }
      exists f'. split; [exact R|]. split.
      + intros n' d' [E|Hn].
        * injection E as <- <-.
          assert (SAME : forall p, written r d (rs d) p -> f' p = f1 p).
          { intros p W. apply O. intros n' d' Hn W'. pose proof (written_set _ _ _ _ _ _ W W') as <-. apply NI. apply in_map_iff. exists (n', d). auto. }
          destruct P1 as (Q1 & (c & c' & A & N & Q2 & Q3 & Q4 & Q5) & Q6). split; [|split].
          -- rewrite SAME; [exact Q1|left; reflexivity].
          -- exists c, c', A, N. split; [exact Q2|]. split; [rewrite SAME; [exact Q3|right; left; reflexivity]|]. split; [exact Q4|].
             intros N0. rewrite SAME; [exact (Q5 N0)|right; right; left; reflexivity].
          -- intros k Hk. rewrite SAME; [exact (Q6 k Hk)|right; right; right; eauto].
        * destruct (P n' d' Hn) as (Q1 & (c & c' & A & N & Q2 & Q3 & Q4 & Q5) & Q6). split; [|split].
          -- rewrite Q1. exact (proj1 (SRC n' d' 0%Z)).
          -- exists c, c', A, N. split; [rewrite <- (proj1 (SRC n' d' 0%Z)); exact Q2|]. auto.
          -- intros k Hk. rewrite (Q6 k Hk). exact (proj2 (SRC n' d' k)).
      + intros p Hp. rewrite O by (intros n' d' Hn; apply (Hp n' d'); right; exact Hn). apply O1. apply (Hp name d). left. reflexivity.
  Qed.
End Prepare.
