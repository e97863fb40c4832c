(** Theorems about create_coupling_from_op_file (vibronic_model_io.py:438-444) *)
From Coq Require Import QArith Qabs.
From Verif Require Import Common Common_Proofs Arr_Model Arr_Proofs ModelIO_Model ModelIO_Spec ModelIO_Proofs ModelIO_Props PyStr_Model ModelOp_Model ModelOp_Spec ModelOp_Proofs ModelOp_Props ModelOp2_Props Import_Model Import_Proofs.
Local Open Scope nat_scope.
Local Open Scope list_scope.

(** ==== C78: an operator file becomes a model file with the same numbers ==== *)

(** the number the operator file's listing gives for a parameter; couplings of
    higher order as in C51 *)
Definition wanted_number (l : listing) (m : vmk) (idx : list nat) (x : Q) : Prop :=
  let A := length (l_E l) in
  match m, idx with
  | w_, [j] => (x == nth j (l_w l) 0)%Q
  | E_, [a; b] => (x == if (a =? b)%nat then nth a (l_E l) 0 else 0)%Q
  | G1_, [j; a; b] => (x == wanted (l_1 l [j]) a b)%Q
  | G2_, [i; j; a; b] => (x == got2 A (l_2 l) i j a b)%Q
  | G3_, [i; j; k; a; b] => (x == got3 A (l_3 l) i j k a b)%Q
  | G4_, [i; j; k; h; a; b] => (x == got4 A (l_4 l) i j k h a b)%Q
  | _, _ => False
  end.

(** if the listing is accepted by the import, the model file is written, nothing
    else is touched, and the file can be loaded and states the numbers of the listing *)
Theorem C78_imported py_float vint f file vib l : read_listing py_float file = Ok l ->
  let N := length (l_w l) in let A := length (l_E l) in
  symmetric_enough N A l -> 0 < N -> 0 < A ->
  exists f' d, create_coupling_from_op_file py_float vint f file vib = (f', Ok vib) /\ (forall p, p <> vib -> f' p = f p) /\
    load_new 0%Q vint Coupled f' vib = Ok d /\ valid vint Coupled (Z.of_nat A) (Z.of_nat N) d /\
    (forall v, ModelIO_Spec.has d (KV N_) v <-> v = PInt (Z.of_nat N)) /\ (forall v, ModelIO_Spec.has d (KV A_) v <-> v = PInt (Z.of_nat A)) /\
    forall m idx s, spec_shape Coupled (Z.of_nat A) (Z.of_nat N) m = Some (map Z.of_nat s) -> inb s idx ->
      exists x, reads 0%Q d m idx x /\ wanted_number l m idx x.
Proof.
  intros RL N A SY HN HA. destruct (complete_cases l) as [[_ E]|[NS _]]; [|contradiction].
  destruct (loaded l vint f vib HN HA) as (f' & d & SV & FR & LD & VA & H1 & H2 & H3).
  exists f', d. unfold create_coupling_from_op_file. rewrite RL, E. unfold dict in SV. rewrite SV.
  split; [reflexivity|]. split; [exact FR|]. split; [exact LD|]. split; [exact VA|]. split; [exact H1|]. split; [exact H2|].
  intros m idx s S IB. destruct (full_all l m) as [o I]. destruct (H3 m o s idx I S IB) as (x & X & EQ). exists x. split; [exact X|].
  assert (MZ : forall s t, map Z.of_nat s = map Z.of_nat t -> s = t).
  { clear. induction s as [|x s IH]; intros [|y t]; cbn; try discriminate; auto. intros E. injection E as E1 E2. apply IH in E2. f_equal; [lia|exact E2]. }
  unfold wanted_number. fold A. cbn [full In] in I.
  destruct I as [I|[I|[I|[I|[I|[I|[I|[I|[]]]]]]]]]; injection I as <- <-; try discriminate; injection S as S;
    [rewrite <- (MZ [A; A] s S) in IB|rewrite <- (MZ [N] s S) in IB|rewrite <- (MZ [N; A; A] s S) in IB|rewrite <- (MZ [N; N; A; A] s S) in IB
    |rewrite <- (MZ [N; N; N; A; A] s S) in IB|rewrite <- (MZ [N; N; N; N; A; A] s S) in IB];
    repeat match goal with H : inb (_ :: _) _ |- _ => unfold inb in H | H : Forall2 lt _ (_ :: _) |- _ => inversion H; subst; clear H | H : Forall2 lt _ [] |- _ => inversion H; subst; clear H end;
    cbn [entry_at nth firstn Nat.add] in EQ; rewrite EQ.
  - reflexivity.
  - reflexivity.
  - apply linear_value. auto.
  - apply higher2; auto.
  - apply higher3; auto.
  - apply higher4; auto.
Qed.
Print Assumptions C78_imported.

(** otherwise no file is changed: the reading fails, the couplings are not
    symmetric, or there are no modes or no surfaces *)
Theorem C78_rejected py_float vint f file vib :
  (forall e, read_listing py_float file = Raise e -> create_coupling_from_op_file py_float vint f file vib = (f, Raise e)) /\
  (forall l, read_listing py_float file = Ok l ->
     ~ symmetric_enough (length (l_w l)) (length (l_E l)) l \/ l_w l = [] \/ l_E l = [] ->
     create_coupling_from_op_file py_float vint f file vib = (f, Raise AssertionError)).
Proof.
  unfold create_coupling_from_op_file. split; [intros e ->; reflexivity|]. intros l -> H.
  destruct (complete_cases l) as [[SY E]|[_ E]]; rewrite E; [|reflexivity].
  assert (HH : l_w l = [] \/ l_E l = []) by tauto. clear H SY E.
  assert (V : verify vint Coupled (dict l) = Raise AssertionError).
  { unfold verify.
    assert (MEM : forall m, dmem key_eqb (dict l) (KV m) = true -> exists o, In (m, o) (full l) /\ all_zero (length (l_w l)) (length (l_E l)) o = false).
    { intros m H. unfold dmem in H. destruct (dget key_eqb (dict l) (KV m)) as [v|] eqn:G; [|discriminate].
      apply (mget_has (dict l) (KV m) v) in G; [|apply dict_fine]. apply dict_has in G. destruct G as (m' & o & E & I & Z & _). injection E as <-. eauto. }
    destruct (dmem key_eqb (dict l) (KV N_)) eqn:M1; [|reflexivity]. destruct (dmem key_eqb (dict l) (KV A_)) eqn:M2; [|reflexivity]. exfalso.
    apply MEM in M1, M2. destruct M1 as (o1 & I1 & Z1). destruct M2 as (o2 & I2 & Z2).
    rewrite (full_fun _ _ _ _ I1 (or_introl eq_refl)) in Z1. rewrite (full_fun _ _ _ _ I2 (or_intror (or_introl eq_refl))) in Z2. cbn in Z1, Z2.
    destruct HH as [HH|HH]; rewrite HH in *; discriminate. }
  unfold save. unfold dict in V. rewrite V. reflexivity.
Qed.
Print Assumptions C78_rejected.

(** for a document: the numbers printed in the operator file are the numbers of
    the loaded model (C51 says which of them are doubled) *)
Theorem C78_document py_float num vint f vib d : doc_ok d -> (forall v, In v (numerals d) -> py_float v = Ok (num v)) ->
  Forall within2 (rows (d_2 d)) -> Forall within_a (rows (d_3 d)) -> Forall within_a (rows (d_4 d)) ->
  Forall within_b (rows (d_b3 d)) -> Forall within_q (rows (d_b4 d)) -> 0 < n_modes d -> 0 < n_surfaces d ->
  exists f' model, create_coupling_from_op_file py_float vint f (Some (op_text d)) vib = (f', Ok vib) /\ (forall p, p <> vib -> f' p = f p) /\
    load_new 0%Q vint Coupled f' vib = Ok model /\
    ModelIO_Spec.has model (KV N_) (PInt (Z.of_nat (n_modes d))) /\ ModelIO_Spec.has model (KV A_) (PInt (Z.of_nat (n_surfaces d))) /\
    (forall j, j < n_modes d -> exists x, reads 0%Q model w_ [j] x /\ (x == nth j (map num (map snd (rows (d_w d)))) 0)%Q) /\
    (forall a b, a < n_surfaces d -> b < n_surfaces d -> exists x, reads 0%Q model E_ [a; b] x /\
       (x == if (a =? b)%nat then nth a (map num (map snd (rows (d_E d)))) 0 else 0)%Q) /\
    (forall j a b, j < n_modes d -> a < n_surfaces d -> b < n_surfaces d -> exists x, reads 0%Q model G1_ [j; a; b] x /\
       (x == if (a =? b)%nat then listed (entries_1 num d) [j] a a else listed (entries_1 num d) [j] a b + listed (entries_1 num d) [j] b a)%Q) /\
    (forall i j a b, i < n_modes d -> j < n_modes d -> a < n_surfaces d -> b < n_surfaces d -> exists x, reads 0%Q model G2_ [i; j; a; b] x /\
       (x == if (a =? b)%nat then factor (n_surfaces d) a * listed (entries_2 num d) [Nat.max i j; Nat.min i j] a a else 0)%Q).
Proof.
  intros OK VAL W2 W3 W4 Wb3 Wb4 HN HA.
  destruct (C51_reads py_float num d OK VAL) as (l & RL & Lw & LE & L1 & L2 & L3 & L4).
  assert (LA : length (l_E l) = n_surfaces d) by (rewrite LE, !map_length; auto).
  assert (LN : length (l_w l) = n_modes d) by (rewrite Lw, !map_length; auto).
  destruct (C51_file py_float num d OK VAL W2 W3 W4 Wb3 Wb4) as (mo & RM & _). unfold read_model_op_file in RM. rewrite RL in RM. cbn [bind] in RM.
  assert (SY : symmetric_enough (length (l_w l)) (length (l_E l)) l) by (apply C51_accepts; eauto).
  destruct (C78_imported py_float vint f (Some (op_text d)) vib l RL SY ltac:(lia) ltac:(lia)) as (f' & model & C & FR & LD & VA & H1 & H2 & H3).
  rewrite LA, LN in *. exists f', model. split; [exact C|]. split; [exact FR|]. split; [exact LD|].
  split; [apply H1; reflexivity|]. split; [apply H2; reflexivity|]. split; [|split; [|split]].
  - intros j Hj. destruct (H3 w_ [j] [n_modes d] eq_refl ltac:(repeat constructor; auto)) as (x & X & E). exists x. split; [exact X|]. cbn in E. rewrite E, Lw. reflexivity.
  - intros a b Ha Hb. destruct (H3 E_ [a; b] [n_surfaces d; n_surfaces d] eq_refl ltac:(repeat constructor; auto)) as (x & X & E). exists x. split; [exact X|]. cbn in E. rewrite E, LE. reflexivity.
  - intros j a b Hj Ha Hb. destruct (H3 G1_ [j; a; b] [n_modes d; n_surfaces d; n_surfaces d] eq_refl ltac:(repeat constructor; auto)) as (x & X & E). exists x. split; [exact X|]. cbn in E. rewrite E. unfold wanted. rewrite !L1. reflexivity.
  - intros i j a b Hi Hj Ha Hb. destruct (H3 G2_ [i; j; a; b] [n_modes d; n_modes d; n_surfaces d; n_surfaces d] eq_refl ltac:(repeat constructor; auto)) as (x & X & E). exists x. split; [exact X|]. cbn in E. rewrite E, LA. clear x X E.
    rewrite Forall_forall in W2.
    assert (LO : forall i j a b, i < j \/ a <> b -> l_2 l [i; j] a b = 0%Q).
    { intros i' j' a' b' H. rewrite L2. apply listed_zero. intros e I. unfold entries_2 in I. apply in_map_iff in I.
      destruct I as ([[[[a2 b2] i2] j2] v] & <- & I). specialize (W2 _ I). cbn in W2. apply entry_for_false.
      destruct H as [H|H]; [left|right; lia]. intros K. injection K as -> ->. lia. }
    unfold got2, got, mirrored2, factor. destruct (Nat.eqb_spec a b) as [<-|NE].
    + rewrite <- L2. destruct (Nat.ltb_spec i j).
      * rewrite (LO i j a a) by auto. rewrite Nat.max_r, Nat.min_l by lia. destruct (a =? n_surfaces d - 1); ring.
      * rewrite Nat.max_l, Nat.min_r by lia. destruct (a =? n_surfaces d - 1); ring.
    + rewrite !(LO _ _ a b), !(LO _ _ b a) by auto. destruct (b =? _), (i <? j), (a <? b); ring.
Qed.
Print Assumptions C78_document.

(** an operator file with couplings of all orders, read with the numerals of Python *)
Example C78_example : doc_ok model_2x2 /\ n_modes model_2x2 = 2 /\ n_surfaces model_2x2 = 2 /\ Forall within2 (rows (d_2 model_2x2)) /\
  let r := create_coupling_from_op_file py_float_str (fun _ => Ok 0%Z) (fun _ => None) (Some (op_text model_2x2)) "m" in
  snd r = Ok "m"%string /\ match load_new 0%Q (fun _ => Ok 0%Z) Coupled (fst r) "m" with Ok d => mget d (KV w_) = Some (PArr (mkArr [2] [1 # 100; 2 # 100]%Q)) | Raise _ => False end.
Proof. split; [apply model_2x2_ok|]. split; [reflexivity|]. split; [reflexivity|]. split; [constructor|]. cbv zeta. split; vm_compute; reflexivity. Qed.
