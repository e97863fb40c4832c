(** Property C97 (preparation of the models of the examples). *)
From Coq Require Import Reals Lra.
From Verif Require Import Common Common_Proofs PyStr_Model PyStr_Proofs FileName_Model FileName_Proofs Json_Model Arr_Model ModelIO_Model ModelIO_Spec ModelIO_Proofs ModelIO2_Proofs ModelIO_Props
  Pimc_Spec Create_Model Create_Spec Create_Proofs Create_Props Point_Model Point_Spec Point_Proofs Point_Props FileStruct_Model FileStruct_Proofs Submit_Model Submit2_Model
  Setup_Model Setup_Spec Setup_Proofs Setup2_Proofs.
Local Open Scope string_scope.
Local Open Scope nat_scope.

(** C97: a data set of the paper is prepared: its files are exactly the input
    file, the diagonal of the model in it, and the sampling models of the paper *)
Theorem C97_prepare {V} (zero : V) isz vint dir cwd host names (f : fs V) name d root r rs :
  (exists n, in_paper n d) -> chosen "/work/ngraymon/pimc/paper_2018/" host root r -> plain_root cwd r -> apart dir r ->
  contains "_R" dir = false -> contains "_R" name = false -> String.prefix "/" name = false ->
  provided zero vint f dir names name d rs ->
  exists f', prepare_paper zero isz vint dir cwd host true names f name d root = (f', Ok tt) /\
    prepared zero isz vint f f' dir r name d rs /\ (forall p, ~ written r d rs p -> f' p = f p).
Proof. apply prepare_ok. Qed.

Lemma all_models_spec name d : In (name, d) all_models <-> in_paper name d.
Proof.
  unfold in_paper. split.
  - intros H. vm_compute in H. repeat (destruct H as [H|H]; [injection H as <- <-; first [left; split; [reflexivity|lia]|right; left; split; [reflexivity|lia]|right; right; left; split; [reflexivity|lia]|right; right; right; split; [reflexivity|lia]]|]). destruct H.
  - intros H.
    assert (C : forall a, (a <= d <= a + 5)%Z -> d = a \/ d = (a + 1)%Z \/ d = (a + 2)%Z \/ d = (a + 3)%Z \/ d = (a + 4)%Z \/ d = (a + 5)%Z) by (intros; lia).
    destruct H as [[-> H]|[[-> H]|[[-> H]|[-> H]]]]; apply C in H; repeat (destruct H as [->|H]; [vm_compute; tauto|]); subst d; vm_compute; tauto.
Qed.
(** C97: all the models of the paper are prepared, and nothing else is touched *)
Theorem C97_automate {V} (zero : V) isz vint dir cwd host names (f : fs V) rs :
  let root := "/work/ngraymon/pimc/paper_2018/" in
  In host ["nlogn"; "feynman"] -> apart dir root -> contains "_R" dir = false ->
  (forall name d, in_paper name d -> provided zero vint f dir names name d (rs d)) ->
  exists f', automate_paper zero isz vint dir cwd host true names f = (f', Ok tt) /\
    (forall name d, in_paper name d -> prepared zero isz vint f f' dir root name d (rs d)) /\
    (forall p, (forall name d, in_paper name d -> ~ written root d (rs d) p) -> f' p = f p).
Proof.
  intros root HH AP CD PR.
  assert (PL : plain_root cwd root).
  { intros q [Q1 Q2]. change (abspath cwd root) with "/work/ngraymon/pimc/paper_2018". destruct q as [|c q]; [congruence|].
    unfold join. rewrite Q2. reflexivity. }
  destruct (prepare_all_ok zero isz vint dir cwd host names rs all_models root f) as (f' & R & P & O).
  - vm_compute. repeat (constructor; [cbn; intuition discriminate|]). constructor.
  - right. auto.
  - exact PL.
  - exact AP.
  - exact CD.
  - intros name d H. apply all_models_spec in H. split; [eauto|]. split; [|split; [|auto]].
    + destruct H as [[-> _]|[[-> _]|[[-> _]|[-> _]]]]; reflexivity.
    + destruct H as [[-> _]|[[-> _]|[[-> _]|[-> _]]]]; reflexivity.
  - exists f'. split; [exact R|]. split; [intros name d H; apply P, all_models_spec; exact H|].
    intros p H. apply O. intros name d Hn. apply (H name d). apply all_models_spec. exact Hn.
Qed.

(** C97: elsewhere than on the servers nothing happens without a root; nor for other data sets *)
Theorem C97_elsewhere {V} (zero : V) isz vint dir cwd host b names (f : fs V) name d :
  ((exists n, in_paper n d) -> ~ In host ["nlogn"; "feynman"] -> prepare_paper zero isz vint dir cwd host b names f name d None = (f, Raise OtherException)) /\
  (~ (exists n, in_paper n d) -> forall root, prepare_paper zero isz vint dir cwd host b names f name d root = (f, Raise AssertionError)) /\
  (~ In host ["nlogn"; "feynman"] -> automate_paper zero isz vint dir cwd host b names f = (f, Raise OtherException)).
Proof.
  assert (CR : ~ In host ["nlogn"; "feynman"] -> choose_root paper_root host = Raise OtherException).
  { intros H. unfold choose_root. destruct (existsb (String.eqb host) server_names) eqn:E; [|reflexivity].
    exfalso. apply existsb_exists in E. destruct E as (x & Hx & X). apply String.eqb_eq in X. subst x. exact (H Hx). }
  split; [|split].
  - intros VD H. unfold prepare_paper. rewrite (proj2 (valid_ids_spec d) VD). cbn [bind root_or_chosen]. rewrite (CR H). reflexivity.
  - intros VD root. unfold prepare_paper. destruct (assert_id_data_is_valid d) as [[]|e] eqn:E; [exfalso; apply VD, valid_ids_spec; exact E|].
    unfold assert_id_data_is_valid, passert in E. destruct (existsb _ _); inversion E. reflexivity.
  - intros H. unfold automate_paper. assert (M : exists l, all_models = ("superimposed", 11%Z) :: l) by (eexists; vm_compute; reflexivity). destruct M as [l ->].
    cbn [prepare_all]. unfold prepare_paper. cbn [root_or_chosen]. rewrite (CR H). reflexivity.
Qed.

(** C97: the iterative sampling model: the model that the job makes, with the
    energies that belong to the coupled model, is sampling model 11 *)
Theorem C97_iterative vint eigvalsh job dir cwd host names f name d root r rs c ci it cm Ai A N E w lin wi li :
  (exists n, in_paper n d) -> In host ["nlogn"; "feynman"] -> chosen "/work/ngraymon/pimc/paper_2018/" host root r -> plain_root cwd r -> apart dir r ->
  contains "_R" dir = false -> contains "_R" name = false -> String.prefix "/" name = false ->
  provided 0%R vint f dir names name d rs -> ~ In 11%Z rs ->
  (forall g, (forall p, ~ written r d rs p -> g p = f p) -> prepared 0%R is_zero vint f g dir r name d rs ->
     exists g', job (abspath cwd "/work/ngraymon/pimc/paper_2018/") d g = (g', Ok tt) /\ g' (iter_of r d) = Some ci /\
       forall p, p <> iter_of r d -> p <> itermat_of r d -> g' p = g p) ->
  f (input_of dir name d) = Some c ->
  two_models vint (fs_write (fs_write f (vib_of r d) c) (iter_of r d) ci) (vib_of r d) (iter_of r d) it cm Ai A N E w lin wi li ->
  eigvalsh_contract (Z.to_nat A) eigvalsh -> (forall i, (i < Z.to_nat N) -> wi i <> 0%R) ->
  exists f' m c' Enew, prepare_iterative vint eigvalsh job dir cwd host true true names f name d root = (f', Ok tt) /\
    prepared 0%R is_zero vint f f' dir r name d rs /\
    f' (iter_of r d) = Some c' /\ f' (rho_of r d 11) = Some c' /\ diagonal_text is_zero vint m c' /\ with_energies it (Z.to_nat Ai) Enew m /\
    (forall a, (a < Z.to_nat Ai) -> least_eigenvalue (Z.to_nat A) (potential (Z.to_nat N) E w lin (minimum wi (fun i => li i a)))
       (surface (Z.to_nat N) Enew wi (fun i => li i a) a (minimum wi (fun i => li i a)))) /\
    (forall p, ~ written r d rs p -> p <> iter_of r d -> p <> itermat_of r d -> p <> rho_of r d 11 -> f' p = f p).
Proof.
  intros VD HH CH PL AP CD CN PN PR N11 JB FI T C WZ.
  destruct (prepare_ok 0%R is_zero vint dir cwd host names f name d root r rs VD CH PL AP CD CN PN PR) as (f1 & R1 & P1 & O1).
  destruct (JB f1 O1 P1) as (f2 & J & JI & JO).
  assert (WI : ~ written r d rs (iter_of r d)).
  { intros [X|[X|[X|(k & _ & X)]]]; match type of X with ?a = ?b => assert (a <> b) by apart_names; contradiction end. }
  assert (VI : f2 (vib_of r d) = Some c).
  { rewrite JO by apart_names. rewrite (proj1 P1). exact FI. }
  destruct (setup_iterative_ok vint eigvalsh job cwd host f1 (build_fs cwd r d 0) r d f2 it cm Ai A N E w lin wi li VD HH (same_set_build cwd r d) PL J) as (f' & m & c' & Enew & S1 & S2 & S3 & S4 & S5 & S6 & S7); [|exact C|exact WZ|].
  { apply (two_models_at vint (fs_write (fs_write f (vib_of r d) c) (iter_of r d) ci) f2 (vib_of r d) (vib_of r d) (iter_of r d) (iter_of r d)); [| |exact T].
    - rewrite write_other by apart_names. rewrite write_same, VI. reflexivity.
    - rewrite write_same, JI. reflexivity. }
  assert (K : forall p, p <> iter_of r d -> p <> itermat_of r d -> p <> rho_of r d 11 -> f' p = f1 p).
  { intros p X Y Z. rewrite S7 by assumption. apply JO; assumption. }
  exists f', m, c', Enew. split.
  { unfold prepare_iterative. rewrite R1. cbn [andthen]. rewrite (chosen_ok paper_root host root r CH). cbn [bind new_fs passert fst]. exact S1. }
  split.
  { destruct P1 as (Q1 & (c0 & c1 & A0 & N0 & Q2 & Q3 & Q4 & Q5) & Q6). split; [rewrite K by apart_names; exact Q1|]. split.
    - exists c0, c1, A0, N0. split; [exact Q2|]. split; [rewrite K by apart_names; exact Q3|]. split; [exact Q4|].
      intros H. rewrite K by apart_names. apply Q5. exact H.
    - intros k Hk. assert (k <> 11)%Z by congruence. rewrite K by apart_names. apply Q6. exact Hk. }
  split; [exact S2|]. split; [exact S3|]. split; [exact S4|]. split; [exact S5|]. split; [exact S6|].
  intros p W X Y Z. rewrite K by assumption. apply O1. exact W.
Qed.

(** C97: with a root of one's own the iterative step does not see the job: it
    fails elsewhere than on a server, and on a server it needs a model that is
    already there *)
Theorem C97_other_root vint eigvalsh job dir cwd host names f name d r rs :
  (exists n, in_paper n d) -> plain_root cwd r -> apart dir r ->
  contains "_R" dir = false -> contains "_R" name = false -> String.prefix "/" name = false ->
  provided 0%R vint f dir names name d rs ->
  exists f1, prepare_paper 0%R is_zero vint dir cwd host true names f name d (Some r) = (f1, Ok tt) /\
    (~ In host ["nlogn"; "feynman"] -> forall b, prepare_iterative vint eigvalsh job dir cwd host true b names f name d (Some r) = (f1, Raise OtherException)) /\
    (In host ["nlogn"; "feynman"] -> f (iter_of r d) = None -> (forall s g, fst (job s d g) (iter_of r d) = g (iter_of r d)) -> (forall s g, snd (job s d g) = Ok tt) ->
       snd (prepare_iterative vint eigvalsh job dir cwd host true true names f name d (Some r)) = Raise OSError /\
       fst (prepare_iterative vint eigvalsh job dir cwd host true true names f name d (Some r)) (rho_of r d 11) = fst (job (abspath cwd "/work/ngraymon/pimc/paper_2018/") d f1) (rho_of r d 11)).
Proof.
  intros VD PL AP CD CN PN PR.
  assert (CH : chosen "/work/ngraymon/pimc/paper_2018/" host (Some r) r) by (left; reflexivity).
  destruct (prepare_ok 0%R is_zero vint dir cwd host names f name d (Some r) r rs VD CH PL AP CD CN PN PR) as (f1 & R1 & P1 & O1).
  exists f1. split; [exact R1|]. split.
  - intros H b. unfold prepare_iterative. rewrite R1. cbn [andthen root_or_chosen bind new_fs passert fst]. unfold setup_iterative.
    rewrite run_iterative_elsewhere by (try assumption; apply valid_ids_spec; exact VD). reflexivity.
  - intros HH FI J1 J2.
    assert (WI : ~ written r d rs (iter_of r d)).
    { intros [X|[X|[X|(k & _ & X)]]]; match type of X with ?a = ?b => assert (a <> b) by apart_names; contradiction end. }
    destruct (job (abspath cwd "/work/ngraymon/pimc/paper_2018/") d f1) as [f2 x] eqn:J.
    assert (x = Ok tt) by (rewrite <- (J2 (abspath cwd "/work/ngraymon/pimc/paper_2018/") f1), J; reflexivity). subst x.
    assert (I2 : f2 (iter_of r d) = None).
    { pose proof (J1 (abspath cwd "/work/ngraymon/pimc/paper_2018/") f1) as X. rewrite J in X. cbn [fst] in X. rewrite X, O1 by exact WI. exact FI. }
    unfold prepare_iterative. rewrite R1. cbn [andthen root_or_chosen bind new_fs passert fst]. unfold setup_iterative.
    destruct (same_set_rho cwd r d (build_fs cwd r d 0) iterative_model_id_rho (same_set_build cwd r d)) as [[] _]. rewrite ss_d, ss_vib, ss_iter.
    rewrite run_iterative_ok by (try assumption; apply valid_ids_spec; exact VD). change paper_root with "/work/ngraymon/pimc/paper_2018/". rewrite J. cbn [andthen].
    unfold recalculate, single_point, load_new, load_raw, read_json. rewrite I2. cbn [bind]. split; reflexivity.
Qed.

(** C97: the transformation of an artificial system uses the stored matrix when
    there is one, and otherwise makes one with the parameter of the data set *)
Theorem C97_transformation vint close new_matrix cwd f root d x m A N Ua M :
  (forall y, close y y = true) ->
  (forall k t, nth_error [5; 25; 50; 75; 100]%Z k = Some t -> (d mod 10 = Z.of_nat k + 1)%Z -> x = t) ->
  (11 <= d <= 15 \/ 21 <= d <= 25 \/ 31 <= d <= 35)%Z ->
  model_in 0%R vint f (vib_of root d) A N m -> surface_close close m -> mode_close close m -> is_matrix A Ua M ->
  (f (ortho_of root d) = Some (CNpy Ua) \/ f (ortho_of root d) = None /\ new_matrix x (Z.of_nat A) = Ok Ua) ->
  exists f' m', art_unitary vint close new_matrix f (build_fs cwd root d 0) = (f', Ok tt) /\
    f' (orig_of root d) = f (vib_of root d) /\ f' (ortho_of root d) = Some (CNpy Ua) /\
    model_in 0%R vint f' (vib_of root d) A N m' /\ conjugated 0%R Rplus Rmult A N M m m' /\
    (forall q, q <> vib_of root d -> q <> orig_of root d -> q <> ortho_of root d -> f' q = f q).
Proof.
  pose proof (same_set_build cwd root d) as []. set (FS := build_fs cwd root d 0) in *. intros CR X VD MI SC MC IM SRC. unfold art_unitary. rewrite ss_vib, ss_orig, ss_ortho, ss_d.
  assert (Zr : forall y : R, is_zero y = true <-> y = 0%R) by (intros y; unfold is_zero; destruct (Req_EM_T y 0); split; intros; congruence).
  pose proof (fun gen u => C10_run 0%R 1%R Rplus Rmult Rminus Ropp is_zero vint close RTheory CR Zr gen f (vib_of root d) (orig_of root d) (ortho_of root d) u m A N Ua M) as RUN.
  destruct SRC as [SRC|[SRC NM]]; rewrite SRC.
  - destruct (RUN (fun _ => Raise OtherException) (MStr "re-use")) as (f' & m' & R1 & R2 & R3 & R4 & R5 & R6); try assumption; try apart_names; [right; left; auto|].
    exists f', m'. rewrite R1. auto 10.
  - assert (AT : art_tuning d = Ok x).
    { assert (VD' : (d = 11 \/ d = 12 \/ d = 13 \/ d = 14 \/ d = 15 \/ d = 21 \/ d = 22 \/ d = 23 \/ d = 24 \/ d = 25 \/ d = 31 \/ d = 32 \/ d = 33 \/ d = 34 \/ d = 35)%Z) by lia.
      assert (FIN : forall k t, nth_error [5; 25; 50; 75; 100]%Z k = Some t -> (d mod 10 = Z.of_nat k + 1)%Z -> art_tuning d = Ok t -> art_tuning d = Ok x) by (intros k t K1 K2 K3; rewrite (X k t K1 K2); exact K3).
      clear - VD' FIN.
      repeat (destruct VD' as [VD'|VD']; [subst d; first [exact (FIN 0 _ eq_refl eq_refl eq_refl)|exact (FIN 1 _ eq_refl eq_refl eq_refl)|exact (FIN 2 _ eq_refl eq_refl eq_refl)|exact (FIN 3 _ eq_refl eq_refl eq_refl)|exact (FIN 4 _ eq_refl eq_refl eq_refl)]|]).
      subst d. exact (FIN 4 _ eq_refl eq_refl eq_refl). }
    rewrite AT.
    destruct (RUN (new_matrix x) MNone) as (f' & m' & R1 & R2 & R3 & R4 & R5 & R6); try assumption; try apart_names; [left; auto|].
    exists f', m'. rewrite R1. auto 10.
Qed.

(** C97: the five sampling models of an artificial system *)
Theorem C97_sampling vint eigvalsh job cwd host f root d cv co A N mv A' N' mo ci it Ai E w lin wi li :
  plain_root cwd root -> In host ["nlogn"; "feynman"] -> (11 <= d <= 15 \/ 21 <= d <= 25 \/ 31 <= d <= 35)%Z ->
  f (vib_of root d) = Some cv -> coupled_file 0%R vint cv A N mv -> f (orig_of root d) = Some co -> coupled_file 0%R vint co A' N' mo ->
  (forall g, (forall p, p <> har_of root d -> p <> rho_of root d 0 -> p <> rho_of root d 1 -> g p = f p) ->
     exists g', job (abspath cwd "/work/ngraymon/pimc/artificial/") d g = (g', Ok tt) /\ g' (iter_of root d) = Some ci /\
       forall p, p <> iter_of root d -> p <> itermat_of root d -> g' p = g p) ->
  two_models vint (fs_write f (iter_of root d) ci) (vib_of root d) (iter_of root d) it mv Ai A N E w lin wi li -> eigvalsh_contract (Z.to_nat A) eigvalsh ->
  (forall i, (i < Z.to_nat N) -> wi i <> 0%R) ->
  exists f' c0 c1 c3 c4 m3 m4 E3 E4, art_sampling vint eigvalsh job cwd host true f (build_fs cwd root d 0) = (f', Ok tt) /\
    f' (har_of root d) = Some c0 /\ f' (rho_of root d 0) = Some c0 /\ diagonal_file 0%R is_zero vint cv A N c0 /\
    f' (rho_of root d 1) = Some c1 /\ diagonal_file 0%R is_zero vint co A' N' c1 /\
    f' (iter_of root d) = Some ci /\ f' (rho_of root d 2) = Some ci /\
    f' (rho_of root d 3) = Some c3 /\ diagonal_text is_zero vint m3 c3 /\ with_energies it (Z.to_nat Ai) E3 m3 /\
    f' (rho_of root d 4) = Some c4 /\ diagonal_text is_zero vint m4 c4 /\ with_energies it (Z.to_nat Ai) E4 m4 /\
    (forall a, (a < Z.to_nat Ai) ->
       least_eigenvalue (Z.to_nat A) (potential (Z.to_nat N) E w lin (minimum wi (fun i => li i a))) (E3 a) /\
       least_eigenvalue (Z.to_nat A) (potential (Z.to_nat N) E w lin (minimum wi (fun i => li i a)))
         (surface (Z.to_nat N) E4 wi (fun i => li i a) a (minimum wi (fun i => li i a)))) /\
    (forall p, p <> har_of root d -> p <> iter_of root d -> p <> itermat_of root d -> (forall k, (0 <= k <= 4)%Z -> p <> rho_of root d k) -> f' p = f p).
Proof. apply art_sampling_ok. apply same_set_build. Qed.

(** C97: preparing an artificial system again does not change its model *)
Theorem C97_again vint eigvalsh job close new_matrix dir cwd host name d root r f f1 f2 b1 b2 x1 x2 :
  chosen "/work/ngraymon/pimc/artificial/" host root r -> apart dir r -> plain_root cwd r ->
  (forall q g s, (q = vib_of r d \/ q = orig_of r d \/ q = ortho_of r d \/ q = join dir ("input_json/model_" ++ name ++ ".json")) -> fst (job s d g) q = g q) ->
  art_prepare vint eigvalsh job close new_matrix dir cwd host b1 b2 f name d root = (f1, Ok x1) ->
  art_prepare vint eigvalsh job close new_matrix dir cwd host b1 b2 f1 name d root = (f2, x2) ->
  f2 (vib_of r d) = f1 (vib_of r d) /\ f2 (orig_of r d) = f1 (orig_of r d) /\ f2 (ortho_of r d) = f1 (ortho_of r d) /\
  f1 (orig_of r d) = f (join dir ("input_json/model_" ++ name ++ ".json")).
Proof.
  assert (I : join dir ("input_json/model_" ++ name ++ ".json") = art_input dir name).
  { unfold art_input. rewrite join_input by (simpl; discriminate). reflexivity. }
  rewrite I. intros CH AP PL JB. apply (art_twice vint eigvalsh job close new_matrix); assumption.
Qed.

(** C97: an artificial system is not prepared elsewhere without a root, nor are others *)
Theorem C97_artificial_elsewhere vint eigvalsh job close new_matrix dir cwd host b1 b2 f name d :
  (~ (11 <= d <= 15 \/ 21 <= d <= 25 \/ 31 <= d <= 35)%Z -> forall root, art_prepare vint eigvalsh job close new_matrix dir cwd host b1 b2 f name d root = (f, Raise AssertionError)) /\
  ((11 <= d <= 15 \/ 21 <= d <= 25 \/ 31 <= d <= 35)%Z -> ~ In host ["nlogn"; "feynman"] -> art_prepare vint eigvalsh job close new_matrix dir cwd host b1 b2 f name d None = (f, Raise OtherException)).
Proof.
  split.
  - intros VD root. unfold art_prepare. destruct (art_assert_valid d) as [[]|e] eqn:E; [exfalso; apply VD, art_valid_spec; exact E|].
    unfold art_assert_valid, passert in E. destruct (existsb _ _); inversion E. reflexivity.
  - intros VD H. unfold art_prepare. rewrite (proj2 (art_valid_spec d) VD). cbn [bind root_or_chosen]. unfold choose_root.
    destruct (existsb (String.eqb host) server_names) eqn:E; [|reflexivity].
    exfalso. apply existsb_exists in E. destruct E as (x & Hx & X). apply String.eqb_eq in X. subst x. exact (H Hx).
Qed.
Example C97_artificial_elsewhere_ex : ~ (11 <= 16 <= 15 \/ 21 <= 16 <= 25 \/ 31 <= 16 <= 35)%Z /\ (11 <= 31 <= 15 \/ 21 <= 31 <= 25 \/ 31 <= 31 <= 35)%Z /\ ~ In "laptop" ["nlogn"; "feynman"].
Proof. split; [lia|]. split; [lia|]. cbn. intuition discriminate. Qed.

(** ** what does not hold *)
Lemma surjective_pairing_ok {A B} (p : A * B) b : snd p = b -> p = (fst p, b).
Proof. destruct p; cbn; congruence. Qed.
Definition ex_dir : string := "/repo/examples/paper_1.5025058".
Definition ex_server : string := "/work/ngraymon/pimc/paper_2018/".
Definition ex_input : content Z := CJson [("number of modes", JInt 1); ("number of surfaces", JInt 2); ("frequencies", JList [NNum 7%Z]); ("energies", JList (map row [[5; 1]; [1; 6]]%Z))].
Definition ex_sampling (e : Z) : content Z := CJson [("number of modes", JInt 1); ("number of surfaces", JInt 2); ("frequencies", JList [NNum 7%Z]); ("energies", JList [NNum e; NNum 6%Z])].
Definition ex_disk (dir : string) : fs Z :=
  fs_write (fs_write (fs_write (fun _ => None) (input_of dir "displaced" 21) ex_input) (alternate_of dir "displaced" 21 0) (ex_sampling 4)) (alternate_of dir "displaced" 21 1) (ex_sampling 3).
Definition ex_names : list string := ["displaced_D1_R0.json"; "displaced_D1_R1.json"; "displaced_D2_R0.json"].
Lemma ex_offers : offers ex_names "displaced" 21 [0; 1]%Z.
Proof.
  split.
  - intros r [<-|[<-|[]]]; vm_compute; auto.
  - intros x H. unfold alternate_name in H. cbn [ex_names In] in H.
    assert (C : forall y, "displaced_D1_R" ++ y ++ ".json" = "displaced" ++ "_D" ++ dec (21 mod 10) ++ "_R" ++ x ++ ".json" -> x = y).
    { intros y E. change ("displaced_D1_R" ++ (y ++ ".json") = "displaced_D1_R" ++ (x ++ ".json")) in E. apply append_inj_l in E. apply append_inj_r in E. congruence. }
    destruct H as [H|[H|[H|[]]]]; [exists 0%Z; split; [left; reflexivity|apply C; exact H]|exists 1%Z; split; [right; left; reflexivity|apply C; exact H]|discriminate H].
Qed.
Lemma ex_coupled : coupled_file 0%Z z_int ex_input 2 1 [(KV N_, PInt 1); (KV A_, PInt 2); (KV w_, PArr (mkArr [1] [7%Z])); (KV E_, PArr (mkArr [2; 2] [5; 1; 1; 6]%Z))].
Proof.
  split; [|split; [vm_compute; reflexivity|]].
  - intros o H. unfold ex_input in H. injection H as <-. repeat constructor; cbn; intuition discriminate.
  - split.
    + split; eexists; (split; [unfold has; simpl; auto|constructor]).
    + intros m v s H Hs. unfold has in H; simpl in H.
      repeat (destruct H as [H|H]; [injection H as <- <-; simpl in Hs; try discriminate; injection Hs as <-; eauto; fail|]). easy.
Qed.
Lemma ex_provided dir : ex_disk dir (input_of dir "displaced" 21) = Some ex_input -> ex_disk dir (alternate_of dir "displaced" 21 0) <> None -> ex_disk dir (alternate_of dir "displaced" 21 1) <> None ->
  provided 0%Z z_int (ex_disk dir) dir ex_names "displaced" 21 [0; 1]%Z.
Proof.
  intros H1 H2 H3. split; [exact ex_offers|]. split; [exists ex_input, 2%Z, 1%Z; eexists; split; [exact H1|exact ex_coupled]|].
  intros k [<-|[<-|[]]]; [destruct (ex_disk dir (alternate_of dir "displaced" 21 0))|destruct (ex_disk dir (alternate_of dir "displaced" 21 1))]; try congruence; eauto.
Qed.

(** C97: "sampling model 0 is the diagonal of the Hamiltonian" fails: the one of
    the paper with the number 0 replaces it *)
Theorem C97_zero_refuted : exists dir names (f f' : fs Z) c c',
  provided 0%Z z_int f dir names "displaced" 21 [0; 1]%Z /\
  prepare_paper 0%Z z_isz z_int dir "/" "nlogn" true names f "displaced" 21 None = (f', Ok tt) /\
  f' (har_of ex_server 21) = Some c /\ f' (rho_of ex_server 21 0) = Some c' /\ c <> c'.
Proof.
  exists ex_dir, ex_names, (ex_disk ex_dir). eexists. exists (ex_sampling 5), (ex_sampling 4).
  split; [apply ex_provided; vm_compute; [reflexivity|discriminate|discriminate]|].
  split; [apply surjective_pairing_ok; vm_compute; reflexivity|]. split; [vm_compute; reflexivity|]. split; [vm_compute; reflexivity|discriminate].
Qed.

(** C97: the place of the scripts matters: below a directory with "_R" in its
    name the numbers of the sampling models are not found, or wrong *)
Theorem C97_directory_refuted :
  (exists dir names (f f' : fs Z), provided 0%Z z_int f dir names "displaced" 21 [0; 1]%Z /\ apart dir ex_server /\
     prepare_paper 0%Z z_isz z_int dir "/" "nlogn" true names f "displaced" 21 None = (f', Raise ValueError) /\
     f' (vib_of ex_server 21) <> None /\ f' (rho_of ex_server 21 1) = None) /\
  (exists dir names (f f' : fs Z), provided 0%Z z_int f dir names "displaced" 21 [0; 1]%Z /\ apart dir ex_server /\
     prepare_paper 0%Z z_isz z_int dir "/" "nlogn" true names f "displaced" 21 None = (f', Ok tt) /\
     f' (rho_of ex_server 21 1) = None /\ f' (rho_of ex_server 21 7) = f (alternate_of dir "displaced" 21 1)).
Proof.
  split; [exists "/home/me/my_Repo/paper"|exists "/home/me_R7_R/paper"]; exists ex_names; eexists (ex_disk _); eexists;
    (split; [apply ex_provided; vm_compute; [reflexivity|discriminate|discriminate]|]);
    (split; [intros p q [_ P] [_ Q] H; unfold join in H; rewrite P, Q in H; discriminate H|]);
    (split; [apply surjective_pairing_ok; vm_compute; reflexivity|]).
  - split; vm_compute; [discriminate|reflexivity].
  - split; vm_compute; reflexivity.
Qed.
(** a file whose number is none stops the preparation *)
Example C97_number_ex : snd (prepare_paper 0%Z z_isz z_int ex_dir "/" "nlogn" true ["displaced_D1_R0.json"; "displaced_D1_Rb.json"] (fs_write (ex_disk ex_dir) (join ex_dir "alternate_rhos/displaced_D1_Rb.json") (ex_sampling 1)) "displaced" 21 None) = Raise ValueError.
Proof. vm_compute. reflexivity. Qed.

(** ** examples *)
Lemma ex_plain cwd root body : abspath cwd root = body -> root = body ++ "/" -> String.prefix "/" root = true -> (forall q, String.prefix "/" q = false -> join body q = body ++ "/" ++ q) ->
  (forall q, String.prefix "/" q = false -> join root q = root ++ q) -> plain_root cwd root.
Proof. intros H1 H2 _ H4 H5 q [_ Q]. rewrite H1, H4, H5, H2 by exact Q. rewrite append_assoc. reflexivity. Qed.
Lemma ex_plain_server cwd : plain_root cwd ex_server.
Proof. apply (ex_plain cwd ex_server "/work/ngraymon/pimc/paper_2018"); try reflexivity; intros q Q; unfold join; rewrite Q; reflexivity. Qed.
Lemma ex_plain_art cwd : plain_root cwd "/work/ngraymon/pimc/artificial/".
Proof. apply (ex_plain cwd _ "/work/ngraymon/pimc/artificial"); try reflexivity; intros q Q; unfold join; rewrite Q; reflexivity. Qed.
Lemma ex_apart : apart ex_dir ex_server.
Proof. intros p q [_ P] [_ Q] H. unfold join in H. rewrite P, Q in H. discriminate H. Qed.
Example C97_prepare_ex : (exists n, in_paper n 21) /\ chosen "/work/ngraymon/pimc/paper_2018/" "nlogn" None ex_server /\ plain_root "/" ex_server /\ apart ex_dir ex_server /\
  contains "_R" ex_dir = false /\ contains "_R" "displaced" = false /\ String.prefix "/" "displaced" = false /\
  provided 0%Z z_int (ex_disk ex_dir) ex_dir ex_names "displaced" 21 [0; 1]%Z /\
  map (fst (prepare_paper 0%Z z_isz z_int ex_dir "/" "nlogn" true ex_names (ex_disk ex_dir) "displaced" 21 None))
      [vib_of ex_server 21; har_of ex_server 21; rho_of ex_server 21 0; rho_of ex_server 21 1] = [Some ex_input; Some (ex_sampling 5); Some (ex_sampling 4); Some (ex_sampling 3)].
Proof.
  split; [exists "displaced"; right; left; split; [reflexivity|lia]|]. split; [right; repeat split; left; reflexivity|]. split; [apply ex_plain_server|]. split; [apply ex_apart|].
  split; [reflexivity|]. split; [reflexivity|]. split; [reflexivity|]. split; [apply ex_provided; vm_compute; [reflexivity|discriminate|discriminate]|]. vm_compute. reflexivity.
Qed.
(** the disk with the files of all the models, without sampling models *)
Definition ex_all : fs Z := fold_right (fun nd f => fs_write f (input_of ex_dir (fst nd) (snd nd)) ex_input) (fun _ => None) all_models.
Example C97_automate_ex : In "feynman" ["nlogn"; "feynman"] /\ apart ex_dir ex_server /\ contains "_R" ex_dir = false /\
  (forall name d, in_paper name d -> provided 0%Z z_int ex_all ex_dir [] name d []) /\
  snd (automate_paper 0%Z z_isz z_int ex_dir "/" "feynman" true [] ex_all) = Ok tt.
Proof.
  split; [right; left; reflexivity|]. split; [apply ex_apart|]. split; [reflexivity|]. split; [|vm_compute; reflexivity].
  intros name d H. split; [split; [intros r []|intros x []]|]. split; [|intros k []]. exists ex_input, 2%Z, 1%Z. eexists. split; [|exact ex_coupled].
  apply all_models_spec in H. vm_compute in H. repeat (destruct H as [H|H]; [injection H as <- <-; vm_compute; reflexivity|]). destruct H.
Qed.
Example C97_elsewhere_ex : ~ In "laptop" ["nlogn"; "feynman"] /\ ~ (exists n, in_paper n 17) /\
  prepare_paper 0%Z z_isz z_int ex_dir "/" "laptop" true ex_names (ex_disk ex_dir) "displaced" 21 None = (ex_disk ex_dir, Raise OtherException).
Proof. split; [cbn; intuition discriminate|]. split; [intros [n H]; unfold in_paper in H; lia|reflexivity]. Qed.
(** over the real numbers: the models of C76_example *)
Definition r_coupled : content R := CJson [("number of modes", JInt 1); ("number of surfaces", JInt 2); ("energies", JList [NList [NNum 0%R; NNum 1%R]; NList [NNum 1%R; NNum 0%R]]); ("frequencies", JList [NNum 2%R])].
Definition r_iter : content R := CJson [("number of modes", JInt 1); ("number of surfaces", JInt 1); ("energies", JList [NNum 5%R]); ("frequencies", JList [NNum 2%R]); ("linear couplings", JList [NList [NNum 2%R]])].
Definition r_int : R -> res Z := fun _ => Ok 0%Z.
Definition r_job (root : string) : string -> Z -> fs R -> fs R * res unit := fun _ d g => (fs_write g (iter_of root d) r_iter, Ok tt).
Lemma r_models (f : fs R) vib iter : f vib = Some r_coupled -> f iter = Some r_iter -> exists it cm, two_models r_int f vib iter it cm 1 2 1
      (fun a b => if (a =? b)%nat then 0%R else 1%R) (fun _ => 2%R) (fun _ _ _ => 0%R) (fun _ => 2%R) (fun _ _ => 2%R) /\ coupled_file 0%R r_int r_coupled 2 1 cm.
Proof.
  intros V I. destruct C76_example as (it & cm & T & _). exists it, cm. split.
  - apply (two_models_at r_int ex_files f "c" vib "s" iter); [rewrite V; reflexivity|rewrite I; reflexivity|exact T].
  - destruct T. split; [intros o H; apply tm_unique2; unfold r_coupled in H; rewrite <- H; reflexivity|]. split; [|exact tm_valid2].
    rewrite <- tm_load2. apply load_ext. reflexivity.
Qed.
Definition r_disk : fs R := fs_write (fun _ => None) (input_of ex_dir "displaced" 21) r_coupled.
Lemma r_provided cm : coupled_file 0%R r_int r_coupled 2 1 cm -> provided 0%R r_int r_disk ex_dir [] "displaced" 21 [].
Proof.
  intros C. split; [split; [intros r []|intros x []]|]. split; [|intros k []]. exists r_coupled, 2%Z, 1%Z, cm. split; [apply write_same|exact C].
Qed.
Example C97_iterative_ex : exists it cm,
  (exists n, in_paper n 21) /\ In "nlogn" ["nlogn"; "feynman"] /\ chosen "/work/ngraymon/pimc/paper_2018/" "nlogn" None ex_server /\ plain_root "/" ex_server /\ apart ex_dir ex_server /\
  contains "_R" ex_dir = false /\ contains "_R" "displaced" = false /\ String.prefix "/" "displaced" = false /\
  provided 0%R r_int r_disk ex_dir [] "displaced" 21 [] /\ ~ In 11%Z [] /\
  (forall g, exists g', r_job ex_server (abspath "/" "/work/ngraymon/pimc/paper_2018/") 21 g = (g', Ok tt) /\ g' (iter_of ex_server 21) = Some r_iter /\
       forall p, p <> iter_of ex_server 21 -> p <> itermat_of ex_server 21 -> g' p = g p) /\
  r_disk (input_of ex_dir "displaced" 21) = Some r_coupled /\
  two_models r_int (fs_write (fs_write r_disk (vib_of ex_server 21) r_coupled) (iter_of ex_server 21) r_iter) (vib_of ex_server 21) (iter_of ex_server 21) it cm 1 2 1
      (fun a b => if (a =? b)%nat then 0%R else 1%R) (fun _ => 2%R) (fun _ _ _ => 0%R) (fun _ => 2%R) (fun _ _ => 2%R) /\
  eigvalsh_contract 2 eig2 /\ (forall i, (i < 1) -> (fun _ : nat => 2%R) i <> 0%R).
Proof.
  destruct (r_models (fs_write (fs_write r_disk (vib_of ex_server 21) r_coupled) (iter_of ex_server 21) r_iter) (vib_of ex_server 21) (iter_of ex_server 21)) as (it & cm & T & CF);
    [rewrite write_other by apart_names; apply write_same|apply write_same|].
  exists it, cm. split; [exists "displaced"; right; left; split; [reflexivity|lia]|]. split; [left; reflexivity|]. split; [right; repeat split; left; reflexivity|]. split; [apply ex_plain_server|]. split; [apply ex_apart|].
  split; [reflexivity|]. split; [reflexivity|]. split; [reflexivity|]. split; [exact (r_provided cm CF)|]. split; [intros []|].
  split; [intros g; eexists; split; [reflexivity|]; split; [apply write_same|intros p P _; apply write_other; exact P]|].
  split; [apply write_same|]. split; [exact T|]. split; [exact eig2_contract|intros; lra].
Qed.
Example C97_other_root_ex : (exists n, in_paper n 21) /\ plain_root "/" "/work/ngraymon/pimc/artificial/" /\ apart ex_dir "/work/ngraymon/pimc/artificial/" /\
  provided 0%R r_int r_disk ex_dir [] "displaced" 21 [] /\ r_disk (iter_of "/work/ngraymon/pimc/artificial/" 21) = None /\
  (forall s g, fst (r_job ex_server s 21 g) (iter_of "/work/ngraymon/pimc/artificial/" 21) = g (iter_of "/work/ngraymon/pimc/artificial/" 21)) /\ (forall s g, snd (r_job ex_server s 21 g) = Ok tt).
Proof.
  destruct (r_models (fs_write (fs_write r_disk (vib_of ex_server 21) r_coupled) (iter_of ex_server 21) r_iter) (vib_of ex_server 21) (iter_of ex_server 21)) as (it & cm & T & CF);
    [rewrite write_other by apart_names; apply write_same|apply write_same|].
  split; [exists "displaced"; right; left; split; [reflexivity|lia]|]. split; [apply ex_plain_art|].
  split; [intros p q [_ P] [_ Q] H; unfold join in H; rewrite P, Q in H; discriminate H|]. split; [exact (r_provided cm CF)|].
  split; [reflexivity|]. split; [|reflexivity]. intros s g. unfold r_job. cbn [fst]. apply write_other. discriminate.
Qed.
Definition ex_art_root : string := "/work/ngraymon/pimc/artificial/".
Definition r_art : fs R := fs_write (fs_write (fun _ => None) (vib_of ex_art_root 13) r_coupled) (orig_of ex_art_root 13) r_coupled.
Example C97_sampling_ex : exists it cm,
  plain_root "/" ex_art_root /\ In "nlogn" ["nlogn"; "feynman"] /\ (11 <= 13 <= 15 \/ 21 <= 13 <= 25 \/ 31 <= 13 <= 35)%Z /\
  r_art (vib_of ex_art_root 13) = Some r_coupled /\ coupled_file 0%R r_int r_coupled 2 1 cm /\ r_art (orig_of ex_art_root 13) = Some r_coupled /\
  (forall g, exists g', r_job ex_art_root (abspath "/" "/work/ngraymon/pimc/artificial/") 13 g = (g', Ok tt) /\ g' (iter_of ex_art_root 13) = Some r_iter /\
       forall p, p <> iter_of ex_art_root 13 -> p <> itermat_of ex_art_root 13 -> g' p = g p) /\
  two_models r_int (fs_write r_art (iter_of ex_art_root 13) r_iter) (vib_of ex_art_root 13) (iter_of ex_art_root 13) it cm 1 2 1
      (fun a b => if (a =? b)%nat then 0%R else 1%R) (fun _ => 2%R) (fun _ _ _ => 0%R) (fun _ => 2%R) (fun _ _ => 2%R) /\
  eigvalsh_contract 2 eig2 /\ (forall i, (i < 1) -> (fun _ : nat => 2%R) i <> 0%R).
Proof.
  assert (V : r_art (vib_of ex_art_root 13) = Some r_coupled) by (unfold r_art; rewrite write_other by apart_names; apply write_same).
  destruct (r_models (fs_write r_art (iter_of ex_art_root 13) r_iter) (vib_of ex_art_root 13) (iter_of ex_art_root 13)) as (it & cm & T & CF); [rewrite write_other by apart_names; exact V|apply write_same|].
  exists it, cm. split; [apply ex_plain_art|]. split; [left; reflexivity|]. split; [lia|]. split; [exact V|]. split; [exact CF|]. split; [apply write_same|].
  split; [intros g; eexists; split; [reflexivity|]; split; [apply write_same|intros p P _; apply write_other; exact P]|].
  split; [exact T|]. split; [exact eig2_contract|intros; lra].
Qed.
Definition r_swap : arr R := mkArr [2; 2] [0; 1; 1; 0]%R.
Example C97_transformation_ex : exists m,
  (forall k t, nth_error [5; 25; 50; 75; 100]%Z k = Some t -> (13 mod 10 = Z.of_nat k + 1)%Z -> 50%Z = t) /\
  model_in 0%R r_int r_art (vib_of ex_art_root 13) 2 1 m /\ surface_close (fun _ _ => true) m /\ mode_close (fun _ _ => true) m /\
  is_matrix 2 r_swap (fun i j => if i =? j then 0%R else 1%R) /\ r_art (ortho_of ex_art_root 13) = None /\ (fun _ _ => Ok r_swap) 50%Z 2%Z = @Ok (arr R) r_swap.
Proof.
  assert (V : r_art (vib_of ex_art_root 13) = Some r_coupled) by (unfold r_art; rewrite write_other by apart_names; apply write_same).
  destruct (r_models (fs_write r_art (iter_of ex_art_root 13) r_iter) (vib_of ex_art_root 13) (iter_of ex_art_root 13)) as (it & cm & T & CF1 & CF2 & CF3); [rewrite write_other by apart_names; exact V|apply write_same|].
  exists cm. split. { intros [|[|[|[|[|k]]]]] t K D; try discriminate D; [injection K as <-; reflexivity|destruct k; discriminate K]. }
  split; [|split; [|split; [|split; [|split]]]].
  - split; [intros o O; apply CF1; rewrite V in O; congruence|]. split; [rewrite <- CF2; apply load_ext; exact V|exact CF3].
  - intros m a pre i j x y _ _ _ _. reflexivity.
  - split; intros; reflexivity.
  - split; [reflexivity|]. split; [reflexivity|]. intros i j Hi Hj. destruct i as [|[|i]]; destruct j as [|[|j]]; try lia; reflexivity.
  - reflexivity.
  - reflexivity.
Qed.

(** a whole run: one surface, one mode *)
Definition one_in (e : R) : content R := CJson [("number of modes", JInt 1); ("number of surfaces", JInt 1); ("energies", JList [NList [NNum e]]); ("frequencies", JList [NNum 2%R])].
Definition art_dir : string := "/repo/examples/artificial_systems".
Definition one_disk : fs R := fs_write (fun _ => None) (join art_dir "input_json/model_2x2.json") (one_in 5).
Definition one_matrix : Z -> Z -> res (arr R) := fun _ _ => Ok (mkArr [1; 1] [1%R]).
Definition eig1 (n : nat) (m : nat -> nat -> R) : list R := [m 0 0].
Lemma eig1_contract : eigvalsh_contract 1 eig1.
Proof.
  intros m Sy. split; [discriminate|]. intros x. unfold eig1. cbn [In]. split.
  - intros [<-|[]]. exists (fun _ => 1%R). split; [exists 0; split; [lia|lra]|]. intros [|i] Hi; [|lia]. cbn. lra.
  - intros (v & (i & Hi & Nz) & H). left. pose proof (H 0 ltac:(lia)) as H0. cbn in H0. destruct i as [|i]; [|lia].
    apply (Rmult_eq_reg_r (v 0)); [lra|exact Nz].
Qed.
Lemma one_model e (f : fs R) vib iter : f vib = Some (one_in e) -> f iter = Some r_iter -> exists it cm, two_models r_int f vib iter it cm 1 1 1
      (fun _ _ => e) (fun _ => 2%R) (fun _ _ _ => 0%R) (fun _ => 2%R) (fun _ _ => 2%R) /\ coupled_file 0%R r_int (one_in e) 1 1 cm.
Proof.
  intros V I. destruct C76_example as (it & cm0 & T & _).
  set (cm := [(KV N_, PInt 1); (KV A_, PInt 1); (KV E_, PArr (mkArr [1; 1] [e])); (KV w_, PArr (mkArr [1] [2%R]))] : mdict R).
  assert (L : load_new 0%R r_int Coupled (fun _ => Some (one_in e)) "" = Ok cm) by reflexivity.
  assert (VA : valid r_int Coupled 1 1 cm).
  { split.
    + split; eexists; (split; [unfold has; simpl; auto|constructor]).
    + intros m v s H Hs. unfold has in H; simpl in H.
      repeat (destruct H as [H|H]; [injection H as <- <-; simpl in Hs; try discriminate; injection Hs as <-; eauto; fail|]). easy. }
  exists it, cm. split.
  - destruct T. split.
    + rewrite I. intros o H. apply tm_unique1. unfold r_iter in H. rewrite <- H. reflexivity.
    + rewrite V. intros o H. unfold one_in in H. injection H as <-. repeat constructor; cbn; intuition discriminate.
    + rewrite <- tm_load1. apply load_ext. rewrite I. reflexivity.
    + rewrite <- L. apply load_ext. exact V.
    + exact tm_valid1.
    + exact VA.
    + lia.
    + exact tm_quad1.
    + intros b x Hb. unfold has in Hb. simpl in Hb. intuition discriminate.
    + intros [|] [|] Ha Hb; cbn in Ha, Hb; try lia. eapply reads_arr; [unfold has; simpl; eauto 10|reflexivity].
    + intros [|] Hi; cbn in Hi; [|lia]. eapply reads_arr; [unfold has; simpl; eauto 10|reflexivity].
    + intros i a b _ _ _. apply reads_missing. intros v Hv. unfold has in Hv. simpl in Hv. intuition discriminate.
    + exact tm_wi.
    + exact tm_li.
    + exact tm_has_w1.
    + eexists. unfold has; simpl; eauto 10.
    + intros i j _ _. reflexivity.
    + intros i _ a b _ _. reflexivity.
  - split; [|split; [exact L|exact VA]]. intros o H. unfold one_in in H. injection H as <-. repeat constructor; cbn; intuition discriminate.
Qed.
Lemma one_run : exists f1, art_prepare r_int eig1 (r_job ex_art_root) (fun _ _ => true) one_matrix art_dir "/" "nlogn" true true one_disk "2x2" 13 None = (f1, Ok tt).
Proof.
  unfold art_prepare. change (art_assert_valid 13) with (Ok tt). cbn [bind root_or_chosen choose_root]. change (choose_root art_root "nlogn") with (Ok art_root). cbn [bind new_fs passert fst].
  set (FS := build_fs "/" art_root 13 0). set (inp := art_input art_dir "2x2").
  pose proof (same_set_build "/" art_root 13) as []. fold FS in ss_d, ss_root, ss_vib, ss_har, ss_iter, ss_orig, ss_ortho. rewrite ss_vib.
  rewrite (copy_at one_disk inp (vib_of art_root 13) (one_in 5)) by (reflexivity || discriminate). cbn [andthen].
  set (g0 := fs_write one_disk (vib_of art_root 13) (one_in 5)).
  assert (GV : g0 (vib_of art_root 13) = Some (one_in 5)) by apply write_same.
  assert (GO : g0 (ortho_of art_root 13) = None) by reflexivity.
  unfold art_unitary. rewrite ss_vib, ss_orig, ss_ortho, ss_d, GO. change (art_tuning 13) with (Ok 50%Z).
  set (e := (R1 * (5 * (R1 * R1)) + R0)%R).
  assert (P : prepare_fake 0%R 1%R Rplus Rmult r_int (fun _ _ => true) (one_matrix 50) g0 (vib_of art_root 13) (ortho_of art_root 13) MNone =
    Ok ([(KV N_, PInt 1); (KV A_, PInt 1); (KV E_, PArr (mkArr [1; 1] [e])); (KV w_, PArr (mkArr [1] [2%R]))], mkArr [1; 1] [1%R])).
  { unfold prepare_fake. rewrite (load_ext 0%R r_int Coupled g0 (fun _ => Some (one_in 5)) _ "" GV). rewrite GV. subst e. unfold one_in. generalize 5%R, 2%R. intros x y. vm_compute. reflexivity. }
  assert (Z2 : forall x : R, x <> 0%R -> is_zero x = false) by (intros x X; unfold is_zero; destruct (Req_EM_T x 0); [contradiction|reflexivity]).
  assert (E5 : e = 5%R) by (unfold e; change R1 with 1%R; change R0 with 0%R; lra).
  rewrite E5 in P. clearbody e. clear E5 e.
  set (m := [(KV N_, PInt 1); (KV A_, PInt 1); (KV E_, PArr (mkArr [1; 1] [5%R])); (KV w_, PArr (mkArr [1] [2%R]))] : mdict R) in *.
  assert (T : (do _ <- verify r_int Coupled m; dumps (strip_arrays is_zero (enum_to_string m))) = Ok [("number of modes", JInt 1); ("number of surfaces", JInt 1); ("energies", JList [NList [NNum 5%R]]); ("frequencies", JList [NNum 2%R])]).
  { change (verify r_int Coupled m) with (Ok tt). cbn [bind]. cbn. rewrite !Z2 by lra. cbn. reflexivity. }
  destruct (fake_fwd r_int (fun _ _ => true) (one_matrix 50) g0 (vib_of art_root 13) (orig_of art_root 13) (ortho_of art_root 13) MNone m (mkArr [1; 1] [1%R]) (one_in 5) _
    ltac:(apart_names) ltac:(apart_names) ltac:(apart_names) P GV T) as (g1 & F1 & V1 & O1 & _).
  rewrite F1. cbn [andthen]. change art_root with ex_art_root in *. fold (one_in 5) in V1.
  destruct (one_model 5 (fs_write g1 (iter_of ex_art_root 13) r_iter) (vib_of ex_art_root 13) (iter_of ex_art_root 13)) as (it & cm & TM & CF); [rewrite write_other by apart_names; exact V1|apply write_same|].
  destruct (C97_sampling r_int eig1 (r_job ex_art_root) "/" "nlogn" g1 ex_art_root 13 (one_in 5) (one_in 5) 1 1 cm 1 1 cm r_iter it 1 (fun _ _ => 5%R) (fun _ => 2%R) (fun _ _ _ => 0%R) (fun _ => 2%R) (fun _ _ => 2%R) (ex_plain_art "/") (or_introl eq_refl) ltac:(lia) V1 CF O1 CF) as (f' & H); [| exact TM|exact eig1_contract|intros; lra|].
  { intros g _. eexists. split; [reflexivity|]. split; [apply write_same|intros p Q _; apply write_other; exact Q]. }
  destruct H as (c0 & c1 & c3 & c4 & m3 & m4 & E3 & E4 & H & _). exists f'. exact H.
Qed.
Example C97_again_ex : exists f1 x1, chosen "/work/ngraymon/pimc/artificial/" "nlogn" None ex_art_root /\ apart art_dir ex_art_root /\ plain_root "/" ex_art_root /\
  (forall q g s, (q = vib_of ex_art_root 13 \/ q = orig_of ex_art_root 13 \/ q = ortho_of ex_art_root 13 \/ q = join art_dir ("input_json/model_" ++ "2x2" ++ ".json")) -> fst (r_job ex_art_root s 13 g) q = g q) /\
  art_prepare r_int eig1 (r_job ex_art_root) (fun _ _ => true) one_matrix art_dir "/" "nlogn" true true one_disk "2x2" 13 None = (f1, Ok x1).
Proof.
  destruct one_run as [f1 R1]. exists f1, tt. split; [right; repeat split; left; reflexivity|].
  split; [intros p q [_ P] [_ Q] H; unfold join in H; rewrite P, Q in H; discriminate H|]. split; [apply ex_plain_art|]. split; [|exact R1].
  intros q g s Hq. unfold r_job. cbn [fst]. apply write_other. destruct Hq as [->|[->|[->| ->]]]; try apart_names. discriminate.
Qed.

Print Assumptions C97_prepare.
Print Assumptions C97_automate.
Print Assumptions C97_elsewhere.
Print Assumptions C97_iterative.
Print Assumptions C97_other_root.
Print Assumptions C97_transformation.
Print Assumptions C97_sampling.
Print Assumptions C97_again.
Print Assumptions C97_artificial_elsewhere.
Print Assumptions C97_zero_refuted.
Print Assumptions C97_directory_refuted.
