(** Theorems about the re-weighting of a sampling model (vibronic_model_io.py:653-730). *)
From Coq Require Import Reals Lra.
From Verif Require Import Common Arr_Model Arr_Proofs ModelIO_Model ModelIO_Spec ModelIO_Proofs Pimc_Spec Point_Model Point_Spec Point_Proofs.
Local Open Scope R_scope.

(** ==== C76: the re-weighted sampling model ==== *)

(** the returned energies are the lowest eigenvalues of the potential matrix at
    the minima of the sampling model's surfaces, one for every surface *)
Theorem C76_single_point vint eigvalsh f vib path it cm Ai A N E w lin wi li :
  two_models vint f vib path it cm Ai A N E w lin wi li -> eigvalsh_contract (Z.to_nat A) eigvalsh ->
  exists es, single_point vint eigvalsh f vib path = Ok es /\ length es = Z.to_nat Ai /\
    forall a, (a < Z.to_nat Ai)%nat ->
      least_eigenvalue (Z.to_nat A) (potential (Z.to_nat N) E w lin (minimum wi (fun i => li i a))) (nth a es 0).
Proof. intros [] C. eapply single_point_ok; eauto. Qed.
Print Assumptions C76_single_point.

(** After the re-weighting every surface of the sampling model, at its minimum,
    has the lowest energy of the coupled model there; nothing else in the model
    and no other file changes. *)
Theorem C76_recalculate vint eigvalsh f vib path it cm Ai A N E w lin wi li :
  two_models vint f vib path it cm Ai A N E w lin wi li -> eigvalsh_contract (Z.to_nat A) eigvalsh ->
  (forall i, (i < Z.to_nat N)%nat -> wi i <> 0) ->
  exists f' d' Enew,
    recalculate vint eigvalsh f vib path = (f', Ok tt) /\
    (forall p, p <> path -> f' p = f p) /\
    save is_zero vint Diagonal f path d' = (f', Ok tt) /\ with_energies it (Z.to_nat Ai) Enew d' /\
    (forall a, (a < Z.to_nat Ai)%nat ->
       least_eigenvalue (Z.to_nat A) (potential (Z.to_nat N) E w lin (minimum wi (fun i => li i a)))
         (surface (Z.to_nat N) Enew wi (fun i => li i a) a (minimum wi (fun i => li i a)))) /\
    ((exists a, (a < Z.to_nat Ai)%nat /\ Enew a <> 0) ->
       exists d2, load_new 0 vint Diagonal f' path = Ok d2 /\ valid vint Diagonal Ai N d2 /\
         (forall a, (a < Z.to_nat Ai)%nat -> stored d2 E_ [a] (Enew a)) /\
         (forall m idx x, In m [w_; G1_; G2_; G3_; G4_] -> stored it m idx x -> stored d2 m idx x)) /\
    ((forall a, (a < Z.to_nat Ai)%nat -> Enew a = 0) -> load_new 0 vint Diagonal f' path = Raise AssertionError).
Proof.
  intros T C W. pose proof T as [].
  assert (Pos : (0 <= Ai)%Z) by (exact (posAi vint f path it Ai N tm_unique1 tm_load1 tm_valid1 li tm_li)).
  destruct (recalculate_ok vint eigvalsh f vib path it cm Ai A N tm_unique1 tm_unique2 tm_load1 tm_load2 tm_valid1 tm_valid2 tm_surfaces C tm_quad1 tm_quad2
             E w lin wi li tm_E tm_w tm_lin tm_wi tm_li tm_has_w1 tm_has_w2 tm_symE tm_symlin W) as (f' & d' & Enew & R1 & R2 & R3 & R4 & (X1 & X2 & X3 & X4) & R5).
  exists f', d', Enew. split; [exact R1|].
  destruct (@save_load_diagonal R 0 is_zero vint (fun _ => 0) f path d' Ai N X1 X2 X3 X4) as (f2 & S & O & L1 & L2).
  rewrite R2 in S. injection S as <-. split; [exact O|]. split; [exact R2|]. split; [exact R4|]. split; [exact R5|].
  assert (HE : has d' (KV E_) (PArr (mkArr [Z.to_nat Ai] (map Enew (seq 0 (Z.to_nat Ai)))))) by (apply R4; left; auto).
  split.
  - intros (a & Ha & Na). destruct L1 as (d2 & LD & D2 & V2 & K2 & H2).
    { eexists. split; [exact HE|]. exists (Enew a). split; [apply in_map, in_seq; lia|apply is_zero_false; exact Na]. }
    exists d2. split; [exact LD|]. split; [exact V2|]. split.
    + intros b Hb. eapply kept_stored; [exact H2| |apply X1|].
      * intros v Hv. eapply valid_is_arr; [exact X4|exact Hv|reflexivity].
      * eapply reads_arr; [exact HE|]. unfold aget. cbn [shape offset data]. destruct (Nat.ltb_spec b (Z.to_nat Ai)); [|lia]. cbn.
        replace (b * 1 + 0)%nat with b by lia. rewrite nth_error_map, nth_error_seq by lia. reflexivity.
    + intros m idx x Hm Sx. eapply kept_stored; [exact H2| |apply X1|].
      * intros v Hv. destruct (spec_shape Diagonal Ai N m) as [s|] eqn:SS; [exact (valid_is_arr vint _ _ _ _ _ _ _ X4 Hv SS)|].
        exfalso. destruct m; cbn in SS, Hm; try discriminate SS; clear - Hm; intuition discriminate.
      * assert (ME : KV m <> KV E_) by (intros EQ; injection EQ as ->; cbn in Hm; clear - Hm; intuition discriminate).
        destruct Sx as [b v Hb G|Hn]; [eapply reads_arr; [apply R4; right; eauto|exact G]|].
        apply reads_missing. intros u Hu. apply R4 in Hu. destruct Hu as [[Hu _]|[_ Hu]]; [contradiction|]. eapply Hn; eauto.
  - intros Z0. replace AssertionError with (if (0 <=? Ai)%Z then AssertionError else ValueError) by (destruct (Z.leb_spec 0 Ai); [reflexivity|lia]).
    apply L2. intros b Hb (x & Hx & Nz). pose proof (has_fun _ _ _ _ (proj1 X1) HE Hb) as EQ. injection EQ as <-. cbn [data] in Hx.
    apply in_map_iff in Hx. destruct Hx as (a & <- & Ia). apply in_seq in Ia. rewrite Z0 in Nz by lia.
    unfold is_zero in Nz. destruct (Req_EM_T 0 0); [discriminate|lra].
Qed.
Print Assumptions C76_recalculate.

(** with positive frequencies the point is the minimum of the surface: there the
    re-weighted surface is nowhere above, and so touches, the coupled model's lowest energy *)
Theorem C76_minimum N wi li E a x : (forall i, (i < N)%nat -> 0 < wi i) ->
  surface N E wi li a (minimum wi li) <= surface N E wi li a x.
Proof. apply minimum_is_lowest. Qed.
Print Assumptions C76_minimum.

(** a second re-weighting writes back the very dictionary it has read *)
Theorem C76_twice vint eigvalsh f vib path it cm Ai A N E w lin wi li f1 d1 :
  two_models vint f vib path it cm Ai A N E w lin wi li -> eigvalsh_contract (Z.to_nat A) eigvalsh ->
  (forall i, (i < Z.to_nat N)%nat -> wi i <> 0) -> (0 < N)%Z -> vib <> path ->
  recalculate vint eigvalsh f vib path = (f1, Ok tt) -> load_new 0 vint Diagonal f1 path = Ok d1 ->
  exists f2, recalculate vint eigvalsh f1 vib path = (f2, Ok tt) /\ save is_zero vint Diagonal f1 path d1 = (f2, Ok tt).
Proof.
  intros T C W HN NV RC LD. pose proof T as [].
  destruct (recalculate_ok vint eigvalsh f vib path it cm Ai A N tm_unique1 tm_unique2 tm_load1 tm_load2 tm_valid1 tm_valid2 tm_surfaces C tm_quad1 tm_quad2
             E w lin wi li tm_E tm_w tm_lin tm_wi tm_li tm_has_w1 tm_has_w2 tm_symE tm_symlin W) as (f' & d' & Enew & R1 & R2 & R3 & R4 & (X1 & X2 & X3 & X4) & R5).
  rewrite RC in R1. injection R1 as <-.
  destruct (@save_load_diagonal R 0 is_zero vint (fun _ => 0) f path d' Ai N X1 X2 X3 X4) as (f2 & S & O & L1 & L2).
  rewrite R2 in S. injection S as <-.
  assert (HE : has d' (KV E_) (PArr (mkArr [Z.to_nat Ai] (map Enew (seq 0 (Z.to_nat Ai)))))) by (apply R4; left; auto).
  destruct (any_nonzero is_zero (mkArr [Z.to_nat Ai] (map Enew (seq 0 (Z.to_nat Ai))))) eqn:NZ.
  2:{ exfalso. rewrite L2 in LD; [destruct (0 <=? Ai)%Z; discriminate|]. intros b Hb K.
      pose proof (has_fun _ _ _ _ (proj1 X1) HE Hb) as EQ. injection EQ as <-. apply any_nonzero_spec in K. congruence. }
  apply any_nonzero_spec in NZ. destruct L1 as (d2 & LD2 & D2 & V2 & K2 & H2); [eauto|]. rewrite LD in LD2. injection LD2 as <-.
  assert (ARR : forall m, m <> N_ -> m <> A_ -> forall v, has d' (KV m) v -> exists a, v = PArr a).
  { intros m M1 M2 v Hv. destruct (spec_shape Diagonal Ai N m) as [s|] eqn:SS; [exact (valid_is_arr vint _ _ _ _ _ _ _ X4 Hv SS)|]. destruct m; try discriminate; contradiction. }
  assert (ST : forall m idx x, m <> N_ -> m <> A_ -> m <> E_ -> stored it m idx x -> stored d1 m idx x).
  { intros m idx x M1 M2 M3 Sx. eapply kept_stored; [exact H2|apply ARR; assumption|apply X1|].
    assert (ME : KV m <> KV E_) by (intros EQ; injection EQ as ->; contradiction).
    destruct Sx as [b v Hb G|Hn]; [eapply reads_arr; [apply R4; right; eauto|exact G]|].
    apply reads_missing. intros u Hu. apply R4 in Hu. destruct Hu as [[Hu _]|[_ Hu]]; [contradiction|]. eapply Hn; eauto. }
  destruct (recalculate_ok vint eigvalsh f1 vib path d1 cm Ai A N) with (E := E) (w := w) (lin := lin) (wi := wi) (li := li)
    as (f3 & d3 & En3 & S1 & S2 & S3 & S4 & S5 & S6).
  - intros o Ho. eapply saved_unique; [| | |exact R2|exact Ho]; assumption.
  - intros o Ho. apply tm_unique2. rewrite <- O by exact NV. exact Ho.
  - exact LD.
  - rewrite <- tm_load2. unfold load_new, load_raw, read_json. rewrite O by exact NV. reflexivity.
  - exact V2.
  - exact tm_valid2.
  - exact tm_surfaces.
  - exact C.
  - intros b x Hb Hx. apply H2 in Hb. destruct Hb as [Hb _]. apply R4 in Hb. destruct Hb as [[Hb _]|[_ Hb]]; [discriminate|]. eapply tm_quad1; eauto.
  - exact tm_quad2.
  - exact tm_E.
  - exact tm_w.
  - exact tm_lin.
  - intros i Hi. apply ST; try discriminate. apply tm_wi. exact Hi.
  - intros i a Hi Ha. apply ST; try discriminate. apply tm_li; assumption.
  - destruct tm_has_w1 as [v Hv]. exists v. apply H2. split; [apply R4; right; split; [discriminate|exact Hv]|].
    intros b ->. assert (Hz : (0 < Z.to_nat N)%nat) by lia. exists (wi 0%nat). split; [|apply is_zero_false; apply W; exact Hz].
    pose proof (tm_wi 0%nat Hz) as S0. destruct S0 as [c u Hc G|Hn]; [|exfalso; eapply Hn; eauto].
    assert (ND : NoDup (map fst it)) by (exact (proj1 (proj1 (D1 vint f path it tm_unique1 tm_load1)))).
    pose proof (has_fun _ _ _ _ ND Hv Hc) as EQ. injection EQ as ->. eapply aget_In; eauto.
  - exact tm_has_w2.
  - exact tm_symE.
  - exact tm_symlin.
  - exact W.
  - exists f3. split; [exact S1|].
    assert (EQ : map En3 (seq 0 (Z.to_nat Ai)) = map Enew (seq 0 (Z.to_nat Ai))).
    { apply map_ext_in. intros a Ia. apply in_seq in Ia.
      pose proof (least_unique _ _ _ _ (S6 a ltac:(lia)) (R5 a ltac:(lia))) as LU. unfold surface in LU. lra. }
    replace d1 with d3; [exact S2|]. rewrite S3, EQ. apply dset_same.
    apply mget_has; [apply D2|]. apply H2. split; [exact HE|]. intros b Hb. injection Hb as <-. exact NZ.
Qed.
Print Assumptions C76_twice.

(** quadratic terms that are not negligible, in either model, are rejected and the file is left alone *)
Theorem C76_quadratic_rejected vint eigvalsh f vib path it cm Ai A N Ni :
  (forall o, f path = Some (CJson o) -> NoDup (map fst o)) -> (forall o, f vib = Some (CJson o) -> NoDup (map fst o)) ->
  load_new 0 vint Diagonal f path = Ok it -> load_new 0 vint Coupled f vib = Ok cm ->
  valid vint Diagonal Ai Ni it -> valid vint Coupled A N cm ->
  (exists v, has it (KV w_) v) -> (exists v, has cm (KV w_) v) ->
  ~ no_quad it \/ ~ no_quad cm ->
  recalculate vint eigvalsh f vib path = (f, Raise OtherException).
Proof. exact (quadratic_rejected vint eigvalsh f vib path it cm Ai A N Ni). Qed.
Print Assumptions C76_quadratic_rejected.

(** different numbers of modes, neither of them one, are rejected *)
Theorem C76_modes_rejected vint eigvalsh f vib path it cm Ai A N Ni :
  (forall o, f path = Some (CJson o) -> NoDup (map fst o)) -> (forall o, f vib = Some (CJson o) -> NoDup (map fst o)) ->
  load_new 0 vint Diagonal f path = Ok it -> load_new 0 vint Coupled f vib = Ok cm ->
  valid vint Diagonal Ai Ni it -> valid vint Coupled A N cm ->
  (exists v, has it (KV w_) v) -> (exists v, has cm (KV w_) v) ->
  no_quad it -> no_quad cm -> (0 < Ai)%Z -> Ni <> N -> Ni <> 1%Z -> N <> 1%Z ->
  recalculate vint eigvalsh f vib path = (f, Raise ValueError).
Proof. exact (modes_rejected vint eigvalsh f vib path it cm Ai A N Ni). Qed.
Print Assumptions C76_modes_rejected.

(** a coupled model without frequencies is rejected *)
Theorem C76_no_frequencies vint eigvalsh f vib path it cm Ai A N Ni :
  (forall o, f path = Some (CJson o) -> NoDup (map fst o)) -> (forall o, f vib = Some (CJson o) -> NoDup (map fst o)) ->
  load_new 0 vint Diagonal f path = Ok it -> load_new 0 vint Coupled f vib = Ok cm ->
  valid vint Diagonal Ai Ni it -> valid vint Coupled A N cm ->
  (exists v, has it (KV w_) v) -> (forall v, ~ has cm (KV w_) v) -> no_quad it ->
  recalculate vint eigvalsh f vib path = (f, Raise KeyError).
Proof. exact (no_frequencies vint eigvalsh f vib path it cm Ai A N Ni). Qed.
Print Assumptions C76_no_frequencies.

(** a number of modes of one is silently stretched over all modes of the other
    model: the sampling model below has one mode, the coupled one two *)
Theorem C76_one_mode_refuted :
  exists (vint : R -> res Z) eigvalsh f vib path it cm es,
    eigvalsh_contract 1 eigvalsh /\
    load_new 0 vint Diagonal f path = Ok it /\ load_new 0 vint Coupled f vib = Ok cm /\
    valid vint Diagonal 1 1 it /\ valid vint Coupled 1 2 cm /\
    single_point vint eigvalsh f vib path = Ok es /\ length es = 1%nat.
Proof.
  exists (fun _ => Ok 0%Z), (fun _ m => [m 0%nat 0%nat]),
    (fun p => if String.eqb p "s" then Some (CJson [("number of modes", JInt 1); ("number of surfaces", JInt 1); ("energies", JList [NNum 5]);
                                                    ("frequencies", JList [NNum 2]); ("linear couplings", JList [NList [NNum 2]])])
              else if String.eqb p "c" then Some (CJson [("number of modes", JInt 2); ("number of surfaces", JInt 1); ("energies", JList [NList [NNum 3]]);
                                                         ("frequencies", JList [NNum 2; NNum 4])])
              else None), "c"%string, "s"%string.
  eexists _, _, _. split; [|split; [reflexivity|split; [reflexivity|split; [|split; [|split; [reflexivity|reflexivity]]]]]].
  - intros m _. split; [discriminate|]. intros x. split.
    + intros [<-|[]]. exists (fun _ => 1). split; [exists 0%nat; split; [lia|lra]|]. intros i Hi. replace i with 0%nat by lia. cbn. lra.
    + intros (v & (i & Hi & Nz) & H). replace i with 0%nat in * by lia. specialize (H 0%nat ltac:(lia)). cbn in H. left.
      apply (Rmult_eq_reg_r (v 0%nat)); [lra|exact Nz].
  - split.
    + split; eexists; (split; [unfold has; simpl; auto|constructor]).
    + intros m v s H Hs. unfold has in H; simpl in H.
      repeat (destruct H as [H|H]; [injection H as <- <-; simpl in Hs; try discriminate; injection Hs as <-; eauto; fail|]). easy.
  - split.
    + split; eexists; (split; [unfold has; simpl; auto|constructor]).
    + intros m v s H Hs. unfold has in H; simpl in H.
      repeat (destruct H as [H|H]; [injection H as <- <-; simpl in Hs; try discriminate; injection Hs as <-; eauto; fail|]). easy.
Qed.
Print Assumptions C76_one_mode_refuted.

(** ---- example: one sampling surface, two coupled surfaces, one mode ---- *)
Definition eig2 (n : nat) (m : nat -> nat -> R) : list R :=
  let c := (m 0%nat 0%nat + m 1%nat 1%nat) / 2 in
  let r := sqrt (((m 0%nat 0%nat - m 1%nat 1%nat) / 2) ^ 2 + m 0%nat 1%nat ^ 2) in
  [c - r; c + r].
Lemma eig2_contract : eigvalsh_contract 2 eig2.
Proof.
  intros m Sy. split; [discriminate|]. intros x.
  pose proof (Sy 0%nat 1%nat ltac:(lia) ltac:(lia)) as S01.
  set (a := m 0%nat 0%nat) in *. set (d := m 1%nat 1%nat) in *. set (b := m 0%nat 1%nat) in *.
  assert (P : 0 <= ((a - d) / 2) ^ 2 + b ^ 2) by (pose proof (pow2_ge_0 ((a - d) / 2)); pose proof (pow2_ge_0 b); lra).
  assert (RR := sqrt_sqrt _ P). set (r := sqrt (((a - d) / 2) ^ 2 + b ^ 2)) in *.
  assert (EQ : In x (eig2 2 m) <-> (a - x) * (d - x) - b * b = 0).
  { unfold eig2. fold a b d r. cbn [In]. split.
    - intros [<-|[<-|[]]]; nra.
    - intros H. assert (F : (x - ((a + d) / 2 - r)) * (x - ((a + d) / 2 + r)) = 0) by nra.
      apply Rmult_integral in F. destruct F as [F|F]; [left; lra|right; left; lra]. }
  rewrite EQ. clear EQ. split.
  - intros D. destruct (Req_dec b 0) as [B|B].
    + rewrite B in D. assert (D' : (a - x) * (d - x) = 0) by lra. apply Rmult_integral in D'. destruct D' as [D'|D'].
      * exists (fun i => match i with O => 1 | _ => 0 end). split; [exists 0%nat; split; [lia|lra]|].
        intros [|[|]] Hi; [| |lia]; cbn; fold a b d; rewrite <- ?S01; fold b; lra.
      * exists (fun i => match i with O => 0 | _ => 1 end). split; [exists 1%nat; split; [lia|lra]|].
        intros [|[|]] Hi; [| |lia]; cbn; fold a b d; rewrite <- ?S01; fold b; lra.
    + exists (fun i => match i with O => b | _ => x - a end). split; [exists 0%nat; split; [lia|exact B]|].
      intros [|[|]] Hi; [| |lia]; cbn; fold a b d; rewrite <- ?S01; fold b; lra.
  - intros (v & (i & Hi & Nz) & H). pose proof (H 0%nat ltac:(lia)) as H0. pose proof (H 1%nat ltac:(lia)) as H1.
    cbn in H0, H1. fold a b d in H0, H1. rewrite <- S01 in H1. fold b in H1.
    assert (Z0 : ((a - x) * (d - x) - b * b) * v 0%nat = 0).
    { replace (((a - x) * (d - x) - b * b) * v 0%nat) with ((d - x) * ((a - x) * v 0%nat + b * v 1%nat) - b * (b * v 0%nat + (d - x) * v 1%nat)) by ring.
      replace ((a - x) * v 0%nat + b * v 1%nat) with 0 by lra. replace (b * v 0%nat + (d - x) * v 1%nat) with 0 by lra. ring. }
    assert (Z1 : ((a - x) * (d - x) - b * b) * v 1%nat = 0).
    { replace (((a - x) * (d - x) - b * b) * v 1%nat) with ((a - x) * (b * v 0%nat + (d - x) * v 1%nat) - b * ((a - x) * v 0%nat + b * v 1%nat)) by ring.
      replace ((a - x) * v 0%nat + b * v 1%nat) with 0 by lra. replace (b * v 0%nat + (d - x) * v 1%nat) with 0 by lra. ring. }
    destruct i as [|[|]]; [| |lia].
    + apply Rmult_integral in Z0. destruct Z0; [assumption|contradiction].
    + apply Rmult_integral in Z1. destruct Z1; [assumption|contradiction].
Qed.

Definition ex_files : fs R := fun p =>
  if String.eqb p "s" then Some (CJson [("number of modes", JInt 1); ("number of surfaces", JInt 1); ("energies", JList [NNum 5]);
                                        ("frequencies", JList [NNum 2]); ("linear couplings", JList [NList [NNum 2]])])
  else if String.eqb p "c" then Some (CJson [("number of modes", JInt 1); ("number of surfaces", JInt 2); ("energies", JList [NList [NNum 0; NNum 1]; NList [NNum 1; NNum 0]]);
                                             ("frequencies", JList [NNum 2])])
  else None.

Example C76_example :
  exists it cm, two_models (fun _ => Ok 0%Z) ex_files "c" "s" it cm 1 2 1
      (fun a b => if (a =? b)%nat then 0 else 1) (fun _ => 2) (fun _ _ _ => 0) (fun _ => 2) (fun _ _ => 2) /\
    eigvalsh_contract 2 eig2 /\ (forall i, (i < 1)%nat -> (fun _ : nat => 2) i <> 0).
Proof.
  eexists _, _. split; [split|split; [exact eig2_contract|intros; lra]].
  - intros o H. cbv [ex_files String.eqb] in H. injection H as <-. repeat constructor; cbn; intuition discriminate.
  - intros o H. cbv [ex_files String.eqb] in H. injection H as <-. repeat constructor; cbn; intuition discriminate.
  - reflexivity.
  - reflexivity.
  - split.
    + split; eexists; (split; [unfold has; simpl; auto|constructor]).
    + intros m v s H Hs. unfold has in H; simpl in H.
      repeat (destruct H as [H|H]; [injection H as <- <-; simpl in Hs; try discriminate; injection Hs as <-; eauto; fail|]). easy.
  - split.
    + split; eexists; (split; [unfold has; simpl; auto|constructor]).
    + intros m v s H Hs. unfold has in H; simpl in H.
      repeat (destruct H as [H|H]; [injection H as <- <-; simpl in Hs; try discriminate; injection Hs as <-; eauto; fail|]). easy.
  - lia.
  - intros b x Hb. unfold has in Hb. simpl in Hb. intuition discriminate.
  - intros b x Hb. unfold has in Hb. simpl in Hb. intuition discriminate.
  - intros [|[|]] [|[|]] Ha Hb; cbn in Ha, Hb; try lia; (eapply reads_arr; [unfold has; simpl; eauto 10|reflexivity]).
  - intros [|] Hi; cbn in Hi; [|lia]. eapply reads_arr; [unfold has; simpl; eauto 10|reflexivity].
  - intros i a b _ _ _. apply reads_missing. intros v Hv. unfold has in Hv. simpl in Hv. intuition discriminate.
  - intros [|] Hi; cbn in Hi; [|lia]. eapply reads_arr; [unfold has; simpl; eauto 10|reflexivity].
  - intros [|] [|] Hi Ha; cbn in Hi, Ha; try lia. eapply reads_arr; [unfold has; simpl; eauto 10|reflexivity].
  - eexists. unfold has; simpl; eauto 10.
  - eexists. unfold has; simpl; eauto 10.
  - intros i j _ _. rewrite Nat.eqb_sym. reflexivity.
  - intros i _ a b _ _. reflexivity.
Qed.

(** C76: files that are refused: a quadratic coupling, two modes against three, a coupled model without frequencies *)
Definition ex_file (N A : Z) (l : list (string * jval R)) : content R := CJson (("number of modes", JInt N) :: ("number of surfaces", JInt A) :: l).
Definition ex_refused (c : content R) : fs R := fun p =>
  if String.eqb p "s" then Some (ex_file 2 1 [("energies", JList [NNum 5]); ("frequencies", JList [NNum 2; NNum 3])]) else if String.eqb p "c" then Some c else None.
Definition refused_case (c : content R) (A N : Z) (cm : mdict R) : Prop :=
  (forall o, ex_refused c "s" = Some (CJson o) -> NoDup (map fst o)) /\ (forall o, ex_refused c "c" = Some (CJson o) -> NoDup (map fst o)) /\
  (exists it, load_new 0 (fun _ => Ok 0%Z) Diagonal (ex_refused c) "s" = Ok it /\ valid (fun _ => Ok 0%Z) Diagonal 1 2 it /\ no_quad it /\ exists v, has it (KV w_) v) /\
  load_new 0 (fun _ => Ok 0%Z) Coupled (ex_refused c) "c" = Ok cm /\ valid (fun _ => Ok 0%Z) Coupled A N cm.
Ltac refused_case := unfold refused_case; split; [intros o H; cbv [ex_refused ex_file String.eqb] in H; injection H as <-; cbn [map fst]; repeat (apply NoDup_cons; [cbn; intuition discriminate|]); apply NoDup_nil|];
  split; [intros o H; cbv [ex_refused ex_file String.eqb] in H; injection H as <-; cbn [map fst]; repeat (apply NoDup_cons; [cbn; intuition discriminate|]); apply NoDup_nil|];
  split; [eexists; split; [reflexivity|]; split; [split; [split; eexists; (split; [unfold has; simpl; auto|constructor])|
     intros m v s H Hs; unfold has in H; simpl in H; repeat (destruct H as [H|H]; [injection H as <- <-; simpl in Hs; try discriminate; injection Hs as <-; eauto; fail|]); easy]|
     split; [intros b x Hb; unfold has in Hb; simpl in Hb; intuition discriminate|eexists; unfold has; simpl; eauto 10]]|];
  split; [reflexivity|]; split; [split; eexists; (split; [unfold has; simpl; auto|constructor])|
     intros m v s H Hs; unfold has in H; simpl in H; repeat (destruct H as [H|H]; [injection H as <- <-; simpl in Hs; try discriminate; injection Hs as <-; eauto; fail|]); easy].
Example C76_refused_example :
  (exists cm, refused_case (ex_file 3 1 [("energies", JList [NList [NNum 5]]); ("frequencies", JList [NNum 2; NNum 3; NNum 4])]) 1 3 cm /\ no_quad cm /\ exists v, has cm (KV w_) v) /\
  (exists cm, refused_case (ex_file 2 1 [("energies", JList [NList [NNum 5]])]) 1 2 cm /\ forall v, ~ has cm (KV w_) v).
Proof.
  split; eexists; (split; [refused_case|]).
  - split; [intros b x Hb; unfold has in Hb; simpl in Hb; intuition discriminate|eexists; unfold has; simpl; eauto 10].
  - intros v Hv. unfold has in Hv. simpl in Hv. intuition discriminate.
Qed.
