(** C103: the driver everything.py and the report of the state of the electronic structure jobs; further checks *)
From Coq Require Import QArith.
From Verif Require Import Common Common_Proofs PyStr_Model PyStr_Proofs FileName_Model FileName_Proofs FileStruct_Model FileStruct_Proofs Rest_Model.
Local Open Scope string_scope.
Local Open Scope nat_scope.

(** ---- everything.py ---- *)
(** no file lies below a regular file *)
Definition regular (s : disk) : Prop := forall p, d_files s p <> None -> ends_with_slash p = false /\ forall q, d_files s (p ++ "/" ++ q) = None.
(** the molecules of the driver *)
Definition molecules : list string :=
  ["acetonitrile"; "ammonia"; "boron_trifluoride"; "formaldehyde"; "methane"; "formamide"; "formic_acid"; "hydrogen_peroxide"; "water"; "pyridine"; "furan";
   "trichloroethylene"; "chloroethylene"; "acrolein"; "acrylonitrile"; "cis_12_dichloroethylene"; "trans_12_dichloroethylene"; "11_dichloroethylene"].
Lemma molecule_get n : dget Z.eqb model_dict n = match nth_error molecules (Z.to_nat n) with Some x => if (0 <=? n)%Z then Some (x, (200 + n)%Z) else None | None => None end.
Proof.
  destruct (Z.leb_spec 0 n) as [L|L].
  - destruct (Z.lt_ge_cases n 18) as [B|B].
    + assert (C : (n = 0 \/ n = 1 \/ n = 2 \/ n = 3 \/ n = 4 \/ n = 5 \/ n = 6 \/ n = 7 \/ n = 8 \/ n = 9 \/ n = 10 \/ n = 11 \/ n = 12 \/ n = 13 \/ n = 14 \/ n = 15 \/ n = 16 \/ n = 17)%Z) by lia.
      repeat (destruct C as [->|C]; [reflexivity|]). subst. reflexivity.
    + rewrite (proj2 (nth_error_None molecules (Z.to_nat n))) by (cbn; lia). unfold model_dict. cbn [dget]. repeat match goal with |- context [(?a =? n)%Z] => destruct (Z.eqb_spec a n); [lia|] | |- context [(n =? ?a)%Z] => destruct (Z.eqb_spec n a); [lia|] end. reflexivity.
  - assert (G : dget Z.eqb model_dict n = None).
    { unfold model_dict. cbn [dget]. repeat match goal with |- context [(?a =? n)%Z] => destruct (Z.eqb_spec a n); [lia|] | |- context [(n =? ?a)%Z] => destruct (Z.eqb_spec n a); [lia|] end. reflexivity. }
    rewrite G. destruct (nth_error _ _); reflexivity.
Qed.
Lemma join_noslash a b : ends_with_slash a = false -> String.prefix "/" b = false -> join a b = a ++ "/" ++ b.
Proof. intros A B. unfold join. rewrite B, A. reflexivity. Qed.
Lemma molecule_rel n x : nth_error molecules n = Some x -> String.prefix "/" x = false /\ forall p, ends_with_slash (p ++ "/" ++ x) = false.
Proof.
  intros E. assert (A : forall y p, y <> "" -> ends_with_slash (p ++ y) = ends_with_slash y).
  { intros y p N. induction p as [|c p IH]; [reflexivity|]. cbn [String.append ends_with_slash]. destruct (p ++ y) as [|d t] eqn:Z; [destruct p; [subst; contradiction|discriminate]|]. exact IH. }
  do 18 (destruct n as [|n]; [injection E as <-; split; [reflexivity|intros p; rewrite A by discriminate; reflexivity]|]). destruct n; discriminate.
Qed.
(** C103: whatever follows, the driver fails for every molecule: before, at the first copy, because the module has no file or is
    itself a file; the only thing that has changed is that the directories of the data set exist *)
Theorem C103_execute cwd module_file root_is_dir isdir_rel rest s n : regular s -> (forall m, module_file = Some m -> d_files s (abspath cwd m) <> None) ->
  exists s' e, execute cwd module_file root_is_dir isdir_rel rest s n = (s', Raise e) /\ d_files s' = d_files s /\
    ((~ (0 <= n < 18)%Z /\ e = OtherException /\ s' = s) \/
     ((0 <= n < 18)%Z /\ root_is_dir = false /\ e = AssertionError /\ s' = s) \/
     ((0 <= n < 18)%Z /\ root_is_dir = true /\ e = (if module_file then OSError else AttributeError) /\
        forall p, In p (d_dirs s') <-> In p (d_dirs s) \/ In p (dir_values (build_fs cwd "/work/ngraymon/pimc/" (200 + n) 0)))).
Proof.
  intros R M. unfold execute. rewrite molecule_get. destruct (Z.leb_spec 0 n) as [L|L].
  2: { exists s, OtherException. split; [destruct (nth_error molecules (Z.to_nat n)); reflexivity|]. split; [reflexivity|]. left. split; [lia|auto]. }
  destruct (nth_error molecules (Z.to_nat n)) as [x|] eqn:E.
  2: { exists s, OtherException. split; [reflexivity|]. split; [reflexivity|]. left. apply nth_error_None in E. cbn in E. split; [lia|auto]. }
  assert (B : (0 <= n < 18)%Z) by (assert (Z.to_nat n < length molecules) by (apply nth_error_Some; congruence); cbn in *; lia).
  unfold new_fs. destruct root_is_dir; cbn [passert bind].
  2: { exists s, AssertionError. split; [reflexivity|]. split; [reflexivity|]. right. left. auto. }
  set (f := build_fs cwd "/work/ngraymon/pimc/" (200 + n) 0). set (ds := if directories_exist isdir_rel then _ else _).
  assert (D : forall p, In p ds <-> In p (d_dirs s) \/ In p (dir_values f)).
  { intros p. assert (MK : forall l ds0, In p (fold_left makedirs l ds0) <-> In p ds0 \/ In p l).
    { induction l as [|y l IH]; intros ds0; cbn [fold_left]; [cbn; tauto|]. rewrite IH. unfold makedirs. rewrite in_app_iff. cbn. tauto. }
    unfold ds. destruct (directories_exist isdir_rel); unfold make_directories; rewrite !MK; tauto. }
  unfold copyInput. destruct module_file as [m|].
  - exists (mkDisk (d_files s) ds), OSError. split; [|split; [reflexivity|right; right; split; [exact B|split; [reflexivity|split; [reflexivity|exact D]]]]].
    specialize (M m eq_refl). destruct (R _ M) as [R1 R2]. destruct (molecule_rel _ _ E) as [X1 X2].
    unfold copyfile. cbn [d_files]. unfold join3 at 1. rewrite (join_noslash (abspath cwd m) x R1 X1).
    rewrite join_noslash; [|apply X2|reflexivity]. replace ((abspath cwd m ++ "/" ++ x) ++ "/" ++ "_params.txt") with (abspath cwd m ++ "/" ++ (x ++ "/_params.txt")) by (rewrite !append_assoc; reflexivity).
    rewrite R2. reflexivity.
  - exists (mkDisk (d_files s) ds), AttributeError. split; [reflexivity|]. split; [reflexivity|]. right. right. split; [exact B|]. split; [reflexivity|]. split; [reflexivity|exact D].
Qed.
Print Assumptions C103_execute.
(** C103: were the module a directory with the two files of the molecule, exactly these would be copied into the directory of the
    electronic structure *)
Theorem C103_copy cwd m s f es name params zmat : ends_with_slash (abspath cwd m) = false -> path_es f = es -> ends_with_slash es = false -> String.prefix "/" name = false ->
  (forall p, ends_with_slash (p ++ "/" ++ name) = false) ->
  let src := abspath cwd m ++ "/" ++ name ++ "/" in let dst := es ++ "/" ++ name ++ "/" in
  isdir (d_dirs s) dst = true -> d_files s (src ++ "_params.txt") = Some params -> d_files s (src ++ "_zmat.txt") = Some zmat ->
  src ++ "_zmat.txt" <> dst ++ "_params.txt" ->
  exists s', copyInput cwd (Some m) s f name = (s', Ok tt) /\ d_dirs s' = d_dirs s /\ d_files s' (dst ++ "_params.txt") = Some params /\ d_files s' (dst ++ "_zmat.txt") = Some zmat /\
    forall p, p <> dst ++ "_params.txt" -> p <> dst ++ "_zmat.txt" -> d_files s' p = d_files s p.
Proof.
  intros A ES EN N1 N2 src dst D P Z NE.
  assert (J : forall x, String.prefix "/" x = false -> join3 (abspath cwd m) name x = src ++ x).
  { intros x X. unfold join3. rewrite (join_noslash (abspath cwd m) name A N1), join_noslash; [|apply N2|exact X]. unfold src. rewrite !append_assoc. reflexivity. }
  assert (K0 : join (path_es f) name = es ++ "/" ++ name) by (rewrite ES; apply join_noslash; assumption).
  assert (K : forall x, String.prefix "/" x = false -> join3 (path_es f) name x = dst ++ x).
  { intros x X. unfold join3. rewrite K0, join_noslash; [|apply N2|exact X]. unfold dst. rewrite !append_assoc. reflexivity. }
  assert (T : "_zmat.txt" <> "_params.txt") by discriminate.
  assert (U : dst ++ "_params.txt" <> dst ++ "_zmat.txt") by (intros E; apply T; symmetry; revert E; clear; induction dst; cbn; [auto|injection 1; auto]).
  unfold copyInput. rewrite !J, !K by reflexivity. rewrite K0. replace ((es ++ "/" ++ name) ++ "/") with dst by (unfold dst; rewrite !append_assoc; reflexivity).
  unfold copyfile. rewrite P, D. cbn [d_files d_dirs]. destruct (String.eqb_spec (src ++ "_zmat.txt") (dst ++ "_params.txt")) as [E|_]; [contradiction|]. rewrite Z, D.
  eexists. split; [reflexivity|]. cbn [d_files d_dirs]. split; [reflexivity|]. split; [|split].
  - destruct (String.eqb_spec (dst ++ "_params.txt") (dst ++ "_zmat.txt")) as [E|_]; [contradiction|]. rewrite String.eqb_refl. reflexivity.
  - rewrite String.eqb_refl. reflexivity.
  - intros p X Y. apply String.eqb_neq in X, Y. rewrite X, Y. reflexivity.
Qed.
Print Assumptions C103_copy.
Example C103_example_copy :
  let f := build_fs "/src" "/work/ngraymon/pimc/" 208 0 in
  let s := mkDisk (fun p => if String.eqb p "/src/input_files/water/_params.txt" then Some "x" else if String.eqb p "/src/input_files/water/_zmat.txt" then Some "y" else None)
             ["/work/ngraymon/pimc/data_set_208/electronic_structure/water/"] in
  path_es f = "/work/ngraymon/pimc/data_set_208/electronic_structure" /\ snd (copyInput "/src" (Some "input_files") s f "water") = Ok tt /\
  d_files (fst (copyInput "/src" (Some "input_files") s f "water")) "/work/ngraymon/pimc/data_set_208/electronic_structure/water/_zmat.txt" = Some "y".
Proof. split; [vm_compute; reflexivity|]. split; vm_compute; reflexivity. Qed.
(** C103: started from a command line it never gets so far *)
Theorem C103_script argv :
  (length argv <> 2 -> everything_script argv = Raise AssertionError) /\
  (forall a b, argv = [a; b] -> (exists n, py_int_str b = Ok n) -> everything_script argv = Raise TypeError) /\
  (forall a b e, argv = [a; b] -> py_int_str b = Raise e -> everything_script argv = Raise e).
Proof.
  unfold everything_script. split; [|split].
  - intros N. rewrite (proj2 (Nat.eqb_neq _ 2) N). reflexivity.
  - intros a b -> (n & E). cbn [length Nat.eqb passert bind item nth_error]. rewrite E. reflexivity.
  - intros a b e -> E. cbn [length Nat.eqb passert bind item nth_error]. rewrite E. reflexivity.
Qed.
Print Assumptions C103_script.

(** ---- the report ---- *)
(** the state a file gives: its last line that is not empty *)
Definition own_state (text st : string) : Prop := exists a line b, split (String "010"%char "") text = (a ++ line :: b)%list /\ line <> "" /\ Forall (eq "") b /\ st = strip line.
Definition no_state (text : string) : Prop := Forall (eq "") (split (String "010"%char "") text).
Lemma last_spec lines old : (Forall (eq "") lines /\ last_state_of (rev lines) old = old) \/
  exists a line b, lines = (a ++ line :: b)%list /\ line <> "" /\ Forall (eq "") b /\ last_state_of (rev lines) old = Some (strip line).
Proof.
  induction lines as [|x l IH] using rev_ind; [left; split; [constructor|reflexivity]|]. rewrite rev_app_distr. cbn [rev app last_state_of].
  destruct (String.eqb_spec x "") as [->|N].
  - destruct IH as [[F E]|(a & line & b & -> & N & F & E)].
    + left. split; [apply Forall_app; split; [exact F|repeat constructor]|exact E].
    + right. exists a, line, (b ++ [""])%list. split; [rewrite <- app_assoc; reflexivity|]. split; [exact N|]. split; [apply Forall_app; split; [exact F|repeat constructor]|exact E].
  - right. exists l, x, []. split; [reflexivity|]. split; [exact N|]. split; [constructor|reflexivity].
Qed.
(** what is logged for model number k *)
Definition logged (path : Z -> string) (fs : fsys string) (models : list (Z * (string * Z))) (old : option string) (l : list entry_) (k : nat) : Prop :=
  forall i name d, nth_error models k = Some (i, (name, d)) ->
    match fs (path d) with
    | None => nth_error l k = Some (name, d, None)
    | Some text =>
        (exists st, own_state text st /\ nth_error l k = Some (name, d, Some st)) \/
        (no_state text /\ exists st, nth_error l k = Some (name, d, Some st) /\
           ((exists j name' d', j < k /\ nth_error l j = Some (name', d', Some st) /\ forall j', j < j' < k -> exists x, nth_error l j' = Some (x, None)) \/
            (old = Some st /\ forall j', j' < k -> exists x, nth_error l j' = Some (x, None))))
    end.
Lemma report_spec path fs : forall models old l r, report path fs models old = (l, r) ->
  (r = Ok tt /\ length l = length models /\ forall k, logged path fs models old l k) \/
  (r = Raise UnboundLocalError /\ old = None /\ exists k i name d text, nth_error models k = Some (i, (name, d)) /\ fs (path d) = Some text /\ no_state text /\
     forall j i' name' d', j < k -> nth_error models j = Some (i', (name', d')) -> fs (path d') = None).
Proof.
  induction models as [|[i [name d]] models IH]; intros old l r E; cbn [report] in E.
  - injection E as <- <-. left. split; [reflexivity|]. split; [reflexivity|]. intros [|k] ? ? ?; discriminate.
  - destruct (fs (path d)) as [text|] eqn:F.
    + destruct (last_state_of (rev (split (String "010"%char "") text)) old) as [st|] eqn:S.
      * destruct (report path fs models (Some st)) as [l1 r1] eqn:E1. injection E as <- <-. destruct (IH _ _ _ E1) as [(-> & L & K)|(_ & X & _)]; [|discriminate].
        left. split; [reflexivity|]. split; [cbn; lia|]. intros [|k] i0 name0 d0 N0.
        -- injection N0 as <- <- <-. rewrite F. destruct (last_spec (split (String "010"%char "") text) old) as [[B Q]|(a & line & b & A1 & A2 & A3 & A4)].
           ++ right. split; [exact B|]. exists st. split; [reflexivity|]. right. split; [congruence|intros; lia].
           ++ left. exists st. split; [exists a, line, b; repeat split; auto; congruence|reflexivity].
        -- specialize (K k i0 name0 d0 N0). destruct (fs (path d0)) as [t0|] eqn:F0; [|exact K]. destruct K as [K|(K1 & st0 & K2 & K3)]; [left; exact K|]. right. split; [exact K1|]. exists st0. split; [exact K2|]. left.
           destruct K3 as [(j & n' & d' & J1 & J2 & J3)|(J1 & J2)].
           ++ exists (Datatypes.S j), n', d'. split; [lia|]. split; [exact J2|]. intros [|j'] B'; [lia|]. apply (J3 j'). lia.
           ++ injection J1 as ->. exists 0, name, d. split; [lia|]. split; [reflexivity|]. intros [|j'] B'; [lia|]. apply (J2 j'). lia.
      * injection E as <- <-. right. split; [reflexivity|]. destruct (last_spec (split (String "010"%char "") text) old) as [[B Q]|(a & line & b & A1 & A2 & A3 & A4)]; [|congruence].
        split; [congruence|]. exists 0, i, name, d, text. split; [reflexivity|]. split; [exact F|]. split; [exact B|]. intros; lia.
    + destruct (report path fs models old) as [l1 r1] eqn:E1. injection E as <- <-. destruct (IH _ _ _ E1) as [(-> & L & K)|(-> & X & k & i0 & n0 & d0 & t0 & K1 & K2 & K3 & K4)].
      * left. split; [reflexivity|]. split; [cbn; lia|]. intros [|k] i0 name0 d0 N0; [injection N0 as <- <- <-; rewrite F; reflexivity|].
        specialize (K k i0 name0 d0 N0). destruct (fs (path d0)) as [t0|] eqn:F0; [|exact K]. destruct K as [K|(K1 & st0 & K2 & K3)]; [left; exact K|]. right. split; [exact K1|]. exists st0. split; [exact K2|].
        destruct K3 as [(j & n' & d' & J1 & J2 & J3)|(J1 & J2)].
        -- left. exists (Datatypes.S j), n', d'. split; [lia|]. split; [exact J2|]. intros [|j'] B'; [lia|]. apply (J3 j'). lia.
        -- right. split; [exact J1|]. intros [|j'] B'; [exists (name, d); reflexivity|]. apply (J2 j'). lia.
      * right. split; [reflexivity|]. split; [exact X|]. exists (Datatypes.S k), i0, n0, d0, t0. split; [exact K1|]. split; [exact K2|]. split; [exact K3|].
        intros [|j] i' n' d' B' N'; [injection N' as <- <- <-; exact F|]. apply (K4 j i' n' d'); [lia|exact N'].
Qed.
(** C103: each of the 18 models is reported with the last state in its file; a file without a state is reported with the state of
    the nearest model before it that has a file, and if there is none the report ends with an UnboundLocalError *)
Theorem C103_status w fs l r : pretty_print_job_status w fs = (l, r) ->
  (r = Ok tt /\ length l = 18 /\
     forall k name, nth_error molecules k = Some name -> let d := (200 + Z.of_nat k)%Z in
       match fs (state_path w d) with
       | None => nth_error l k = Some (name, d, None)
       | Some text =>
           (exists st, own_state text st /\ nth_error l k = Some (name, d, Some st)) \/
           (no_state text /\ exists st j name' d', nth_error l k = Some (name, d, Some st) /\ j < k /\ nth_error l j = Some (name', d', Some st) /\ forall j', j < j' < k -> exists x, nth_error l j' = Some (x, None))
       end) \/
  (r = Raise UnboundLocalError /\ exists k name text, nth_error molecules k = Some name /\ fs (state_path w (200 + Z.of_nat k)%Z) = Some text /\ no_state text /\
     forall j, j < k -> fs (state_path w (200 + Z.of_nat j)%Z) = None).
Proof.
  intros E. unfold pretty_print_job_status in E.
  assert (M : forall k name, nth_error molecules k = Some name <-> nth_error number_dictionary k = Some (Z.of_nat k, (name, (200 + Z.of_nat k)%Z))).
  { intros k name. do 18 (destruct k as [|k]; [split; intros X; injection X as <-; reflexivity|]). destruct k; split; discriminate. }
  assert (M2 : forall k i name d, nth_error number_dictionary k = Some (i, (name, d)) -> nth_error molecules k = Some name /\ d = (200 + Z.of_nat k)%Z).
  { intros k i name d X. do 18 (destruct k as [|k]; [injection X as <- <- <-; split; reflexivity|]). destruct k; discriminate. }
  destruct (report_spec _ _ _ _ _ _ E) as [(-> & L & K)|(-> & _ & k & i & name & d & text & K1 & K2 & K3 & K4)].
  - left. split; [reflexivity|]. split; [rewrite L; reflexivity|]. intros k name N d. apply M in N. specialize (K k _ _ _ N). fold d in K. destruct (fs (state_path w d)) as [text|]; [|exact K].
    destruct K as [K|(K1 & st & K2 & [(j & n' & d' & J)|(X & _)])]; [left; exact K| |discriminate]. right. split; [exact K1|]. exists st, j, n', d'. tauto.
  - right. split; [reflexivity|]. destruct (M2 _ _ _ _ K1) as [N ->]. exists k, name, text. split; [exact N|]. split; [exact K2|]. split; [exact K3|].
    intros j B. assert (LK : k < 18) by (assert (k < length molecules) by (apply nth_error_Some; congruence); exact H).
    destruct (nth_error molecules j) as [nj|] eqn:Nj; [|apply nth_error_None in Nj; cbn in Nj; lia]. apply M in Nj. eapply K4; eauto.
Qed.
Print Assumptions C103_status.
(** C103: so a model can be reported with the state of another one *)
Theorem C103_own_state_refuted : exists fs l,
  pretty_print_job_status (Root "/w") fs = (l, Ok tt) /\
  fs "/w/data_set_203/electronic_structure/execution_state.txt" = Some (String "010"%char "") /\ no_state (String "010"%char "") /\
  nth_error l 3 = Some ("formaldehyde", 203%Z, Some "State.scf") /\
  fs "/w/data_set_201/electronic_structure/execution_state.txt" = Some ("State.setup" ++ String "010"%char ("State.scf" ++ String "010"%char (String "010"%char ""))).
Proof.
  set (fs := fun p => if String.eqb p "/w/data_set_203/electronic_structure/execution_state.txt" then Some (String "010"%char "")
    else if String.eqb p "/w/data_set_201/electronic_structure/execution_state.txt" then Some ("State.setup" ++ String "010"%char ("State.scf" ++ String "010"%char (String "010"%char ""))) else None).
  exists fs, (fst (pretty_print_job_status (Root "/w") fs)). vm_compute. repeat split; repeat constructor.
Qed.
Print Assumptions C103_own_state_refuted.
(** C103: the wrapper for one data set uses the same directory for all of them, which is that of none *)
Theorem C103_wrapper_one_refuted n m k : wrapper_one_root n = wrapper_one_root m /\ wrapper_one_root n <> "/work/ngraymon/pimc/data_set_" ++ dec k ++ "/electronic_structure/".
Proof.
  split; [reflexivity|]. intros E. unfold wrapper_one_root in E. change "/work/ngraymon/pimc/data_set_{:d}/electronic_structure/" with ("/work/ngraymon/pimc/data_set_" ++ "{:d}/electronic_structure/") in E. apply append_inj_l in E.
  assert (I : all_chars is_int_char (dec k) = true) by apply dec_int_chars. destruct (dec k) as [|c t]; [discriminate E|]. injection E as <- _. discriminate I.
Qed.
Print Assumptions C103_wrapper_one_refuted.

(** ---- further checks ---- *)
(** C103: the check of a covariance matrix never succeeds: it fails with an AssertionError if an entry is not above minus the tolerance and with an AttributeError otherwise *)
Theorem C103_positive_refuted tol m :
  ((exists row x, In row m /\ In x row /\ (x <= - tol)%Q) -> pos_sym_assert tol m = Raise AssertionError) /\
  ((forall row x, In row m -> In x row -> (- tol < x)%Q) -> pos_sym_assert tol m = Raise AttributeError).
Proof.
  unfold pos_sym_assert. split.
  - intros (row & x & R & X & L). destruct (forallb _ m) eqn:E; [|reflexivity]. rewrite forallb_forall in E. specialize (E row R). rewrite forallb_forall in E. specialize (E x X). apply Qle_bool_iff in L. rewrite L in E. discriminate.
  - intros A. assert (E : forallb (forallb (fun x => negb (Qle_bool x (- tol)))) m = true); [|rewrite E; reflexivity].
    apply forallb_forall. intros row R. apply forallb_forall. intros x X. specialize (A row x R X). destruct (Qle_bool x (- tol)) eqn:Z; [|reflexivity]. apply Qle_bool_iff in Z. exfalso. exact (Qlt_not_le _ _ A Z).
Qed.
Print Assumptions C103_positive_refuted.
(** C103: verify_directories_exists makes all directories of the data set, or fails without a root and without the directory root *)
Theorem C103_directories cwd root_is_dir isdir_rel ds d root :
  verify_directories_exists cwd root_is_dir isdir_rel ds d None = (ds, Raise OtherException) /\
  (root_is_dir = false -> verify_directories_exists cwd root_is_dir isdir_rel ds d (Some root) = (ds, Raise AssertionError)) /\
  (root_is_dir = true -> exists ds', verify_directories_exists cwd root_is_dir isdir_rel ds d (Some root) = (ds', Ok tt) /\
     forall p, In p ds' <-> In p ds \/ In p (dir_values (build_fs cwd root d 0))).
Proof.
  split; [reflexivity|]. split; intros ->; [reflexivity|]. cbn [verify_directories_exists new_fs passert bind]. eexists. split; [reflexivity|].
  intros p. assert (MK : forall l ds0, In p (fold_left makedirs l ds0) <-> In p ds0 \/ In p l).
  { induction l as [|y l IH]; intros ds0; cbn [fold_left]; [cbn; tauto|]. rewrite IH. unfold makedirs. rewrite in_app_iff. cbn. tauto. }
  destruct (directories_exist isdir_rel); unfold make_directories; rewrite !MK; tauto.
Qed.
Print Assumptions C103_directories.
(** C103: julia is loaded as a module of the wanted version exactly if it does not answer; only three versions are accepted *)
Theorem C103_julia out version :
  (~ In version ["0.7.0"; "1.0.0"; "1.0.1"] -> prepare_julia out version = Raise AssertionError) /\
  (In version ["0.7.0"; "1.0.0"; "1.0.1"] -> (exists a b, out ["julia"; "-v"] = a ++ "julia version" ++ b) -> prepare_julia out version = Ok ([["julia"; "-v"]], None)) /\
  (In version ["0.7.0"; "1.0.0"; "1.0.1"] -> (forall a b, out ["julia"; "-v"] <> a ++ "julia version" ++ b) ->
     prepare_julia out version = Ok ([["julia"; "-v"]; ["modulecmd"; "python"; "load"; "Julia/" ++ version]], Some (out ["modulecmd"; "python"; "load"; "Julia/" ++ version]))).
Proof.
  assert (V : existsb (String.eqb version) ["0.7.0"; "1.0.0"; "1.0.1"] = true <-> In version ["0.7.0"; "1.0.0"; "1.0.1"]).
  { rewrite existsb_exists. split; [intros (x & X & E); apply String.eqb_eq in E; subst; exact X|intros X; exists version; split; [exact X|apply String.eqb_refl]]. }
  unfold prepare_julia. split; [|split].
  - intros N. destruct (existsb _ _); [exfalso; apply N; apply V; reflexivity|reflexivity].
  - intros I X. apply V in I. rewrite I. cbn [passert bind]. assert (C : contains "julia version" (out ["julia"; "-v"]) = true) by (apply contains_spec; exact X). rewrite C. reflexivity.
  - intros I X. apply V in I. rewrite I. cbn [passert bind]. destruct (contains "julia version" (out ["julia"; "-v"])) eqn:C; [|reflexivity]. apply contains_spec in C. destruct C as (a & b & C). destruct (X a b C).
Qed.
Print Assumptions C103_julia.

(** concrete cases *)
Example C103_example :
  let s := mkDisk (fun p => if String.eqb p "/src/examples/input_files/__init__.py" then Some "" else if String.eqb p "/src/examples/input_files/water_params.txt" then Some "x" else None) [] in
  let run m n := snd (execute "/src/pibronic" m true (fun _ => false) (fun s _ => (s, Ok tt)) s n) in
  run (Some "../examples/input_files/__init__.py") 8%Z = Raise OSError /\ run None 8%Z = Raise AttributeError /\ run None 18%Z = Raise OtherException /\
  everything_script ["everything.py"; "8"] = Raise TypeError /\ everything_script ["everything.py"; "--help"] = Raise ValueError /\ everything_script ["everything.py"] = Raise AssertionError /\
  snd (pretty_print_job_status Default (fun p => if String.eqb p "/work/ngraymon/pimc/data_set_205/electronic_structure/execution_state.txt" then Some "" else None)) = Raise UnboundLocalError /\
  pos_sym_assert (1 # 100) [[1; -1 # 2]; [-1 # 2; 1]]%Q = Raise AssertionError /\ pos_sym_assert (1 # 100) [[1; 2]; [2; 1]]%Q = Raise AttributeError /\
  prepare_julia (fun _ => "julia version 1.0.1") "1.0.0" = Ok ([["julia"; "-v"]], None).
Proof. vm_compute. repeat split. Qed.
(** the disk of the example satisfies the hypotheses of C103_execute *)
Example C103_example_disk :
  let s := mkDisk (fun p => if String.eqb p "/src/examples/input_files/__init__.py" then Some "" else None) [] in
  regular s /\ d_files s (abspath "/src/pibronic" "../examples/input_files/__init__.py") <> None.
Proof.
  intros s. split; [|vm_compute; discriminate]. intros r N. assert (E : r = "/src/examples/input_files/__init__.py").
  { unfold s in N. cbn [d_files] in N. destruct (String.eqb_spec r "/src/examples/input_files/__init__.py") as [E|E]; [exact E|contradiction]. }
  rewrite E. split; [reflexivity|]. intros q. reflexivity.
Qed.
