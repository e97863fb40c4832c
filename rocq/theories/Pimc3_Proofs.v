(** The loops compute rho(R) and g(R) of the specification. *)
From Coq Require Import Reals Lra FunctionalExtensionality.
From Verif Require Import Common Common_Proofs Pimc_Model Pimc_Spec Pimc_Proofs Pimc2_Proofs.
Local Open Scope R_scope.

Lemma oval_propagator T N P omega energy delta tau q shift p a E lin x :
  0 < tau -> (forall n, (n < N)%nat -> 0 < omega n) -> (p < P)%nat ->
  energy a = E -> delta a = lowering N omega lin -> (forall n, (n < N)%nat -> shift a n = minimum omega lin n) ->
  (forall n p', (n < N)%nat -> (p' < P)%nat -> q a n p' = x p' n) ->
  oval N P (temperature_dependent T N omega energy delta tau) q shift p a
  = propagator N omega E lin tau (x p) (x (next P p)).
Proof.
  intros Ht Hw Hp HE Hd Hs Hq. unfold oval, propagator. rewrite next_mod by auto. pose proof (next_lt P p Hp) as Hn.
  simpl. rewrite HE, Hd. rewrite Sum_rsum, Prod_rprod. rewrite Rmult_comm. f_equal; [f_equal|].
  - apply (f_equal exp). lra.
  - apply (f_equal sqrt), rprod_ext. intros n _. rewrite Rmult_1_l. unfold Rdiv. lra.
  - apply (f_equal exp). unfold Rdiv. rewrite Ropp_mult_distr_l_reverse, (Rmult_comm _ (/ 2)).
    apply (f_equal Ropp), (f_equal (Rmult (/ 2))), rsum_ext. intros n Hn'.
    rewrite Rmult_1_l. rewrite inv_tanh by (apply Rmult_lt_0_compat; auto).
    rewrite Hs, !Hq by auto. unfold Rdiv. simpl. lra.
Qed.

Lemma propagator_pos N omega E lin tau x y : 0 < tau -> (forall n, (n < N)%nat -> 0 < omega n) -> 0 < propagator N omega E lin tau x y.
Proof.
  intros Ht Hw. unfold propagator. apply Rmult_lt_0_compat; [apply Rmult_lt_0_compat|]; try apply exp_pos.
  apply sqrt_lt_R0. rewrite Prod_rprod. apply rprod_pos. intros n Hn.
  apply Rdiv_lt_0_compat; [lra|]. apply sinh_pos, Rmult_lt_0_compat; auto.
Qed.

Lemma lowering_rsum N omega lin : - / 2 * rsum N (fun n => lin n * lin n / omega n) = lowering N omega lin.
Proof.
  unfold lowering. rewrite Sum_rsum. rewrite (rsum_ext N (fun n => lin n ^ 2 / omega n) (fun n => lin n * lin n / omega n)).
  - lra.
  - intros n _. simpl. rewrite Rmult_1_r. reflexivity.
Qed.

Ltac proj := cbn [v_states v_modes v_omega v_energy v_linear v_quadratic v_delta_weight v_state_shift
  r_states r_modes r_omega r_energy r_linear r_delta_weight r_state_weight r_state_shift
  u_vib u_rho u_crho u_cvib u_cplus u_cminus vib_linear_displacement vib_finish_folding
  rho_linear_displacement rho_weights rho_finish_folding t_states temperature_dependent vib_constants].

Section Run.
  Variables (P : nat) (beta db : R) (vm : vib_model) (rm : rho_model) (er : arr1).
  Let A := v_states vm.
  Let N := v_modes vm.
  Let tau := beta / INR P.
  Hypothesis HP : (3 <= P)%nat.
  Hypothesis HA : (0 < A <= r_states rm)%nat.
  Hypothesis HN : r_modes rm = N.
  Hypothesis Hbeta : 0 < beta.
  Hypothesis Hplus : 0 < beta + db.
  Hypothesis Hminus : 0 < beta - db.
  Hypothesis Hwv : forall n, (n < N)%nat -> 0 < v_omega vm n.
  Hypothesis Hwr : forall n, (n < N)%nat -> 0 < r_omega rm n.
  Hypothesis Her : r_energy rm = Some er.
  Hypothesis Hsym : forall b c, (b < A)%nat -> (c < A)%nat ->
    v_energy vm b c = v_energy vm c b
    /\ (forall n, (n < N)%nat -> v_linear vm n b c = v_linear vm n c b)
    /\ (forall n m, (n < N)%nat -> (m < N)%nat -> v_quadratic vm n m b c = v_quadratic vm n m c b).

  Lemma INR_P : 0 < INR P.
  Proof. apply lt_0_INR. lia. Qed.
  Lemma tau_pos : 0 < tau.
  Proof. apply Rdiv_lt_0_compat; auto using INR_P. Qed.

  Definition u_pm : setup :=
    let m1 := vib_linear_displacement A vm in
    let m2 := rho_weights beta (rho_linear_displacement rm) in
    {| u_vib := vib_finish_folding A m1; u_rho := rho_finish_folding m2;
       u_crho := temperature_dependent (r_states m2) (r_modes m2) (r_omega m2) (r_energy_at m2) (r_delta_weight m2) tau;
       u_cvib := vib_constants m1 tau;
       u_cplus := vib_constants m1 ((beta + db) / INR P);
       u_cminus := vib_constants m1 ((beta - db) / INR P) |}.
  Lemma prepare_pm_ok : prepare_pm P beta db vm rm = Ok u_pm.
  Proof. clear HA HN. unfold prepare_pm, circulant_matrix. destruct (Nat.leb_spec 3 P); [reflexivity|lia]. Qed.
  Definition u_plain : setup :=
    {| u_vib := u_vib u_pm; u_rho := u_rho u_pm; u_crho := u_crho u_pm; u_cvib := u_cvib u_pm; u_cplus := u_cvib u_pm; u_cminus := u_cvib u_pm |}.
  Lemma prepare_ok : prepare P beta vm rm = Ok u_plain.
  Proof. clear HA HN. unfold prepare, circulant_matrix. destruct (Nat.leb_spec 3 P); [reflexivity|lia]. Qed.

  (** a box of the right sizes whose coordinates are the path [x] *)
  Definition at_path (d : box) (x : arr2) : Prop :=
    b_states d = A /\ b_rho_states d = r_states rm /\ b_modes d = N /\ b_beads d = P /\ b_tau d = tau
    /\ (forall a n p, (a < A)%nat -> (n < N)%nat -> (p < P)%nat -> b_q d a n p = x p n)
    /\ (forall a n p, (a < r_states rm)%nat -> (n < N)%nat -> (p < P)%nat -> b_qtemp d a n p = x p n).

  Definition prop_v (t : R) (x : arr2) (p a : nat) : R :=
    propagator N (v_omega vm) (v_energy vm a a) (fun n => v_linear vm n a a) t (x p) (x (next P p)).
  Definition prop_r (x : arr2) (p a : nat) : R :=
    propagator N (r_omega rm) (er a) (fun n => r_linear rm n a) tau (x p) (x (next P p)).

  Lemma v_of_value u d x t p a : u_vib u = u_vib u_pm -> at_path d x -> 0 < t -> (p < P)%nat -> (a < A)%nat ->
    v_of u (vib_constants (vib_linear_displacement A vm) t) d p a = prop_v t x p a.
  Proof.
    intros Hu (D1 & D2 & D3 & D4 & D5 & D6 & D7) Ht Hp Ha. unfold v_of, vib_constants. rewrite D3, D4.
    change (v_modes (vib_linear_displacement A vm)) with N.
    assert (Hltb : (a <? A)%nat = true) by (apply Nat.ltb_lt; auto).
    apply oval_propagator; auto.
    - proj. rewrite Hltb. apply (lowering_rsum N (v_omega vm) (fun n => v_linear vm n a a)).
    - intros n Hn. rewrite Hu. unfold u_pm. proj. rewrite Hltb. unfold minimum, Rdiv. lra.
  Qed.
  Lemma v_rho_value u d x p a : u_rho u = u_rho u_pm -> u_crho u = u_crho u_pm -> at_path d x -> (p < P)%nat -> (a < A)%nat ->
    v_rho u d p a = prop_r x p a.
  Proof.
    intros Hu Hc (D1 & D2 & D3 & D4 & D5 & D6 & D7) Hp Ha. unfold v_rho. rewrite Hu, Hc, D3, D4, D2. cbn [u_crho u_pm].
    change (r_modes (rho_weights beta (rho_linear_displacement rm))) with (r_modes rm).
    rewrite HN.
    assert (Hltb : (a <? r_states rm)%nat = true) by (apply Nat.ltb_lt; lia).
    apply oval_propagator; auto using tau_pos.
    - unfold r_energy_at. proj. rewrite Her. reflexivity.
    - proj. rewrite HN. apply (lowering_rsum N (r_omega rm) (fun n => r_linear rm n a)).
    - intros n Hn. unfold u_pm. proj. rewrite Hltb. unfold minimum, Rdiv. lra.
    - intros n p' Hn Hp'. unfold used_q. destruct (Nat.eqb_spec (r_states rm) (b_states d)).
      + apply D6; auto.
      + apply D7; auto. lia.
  Qed.

  Definition v_coupling (x : nat -> R) : arr2 := coupling N (v_energy vm) (v_linear vm) (v_quadratic vm) x.
  Lemma coupling_value u d x p : u_vib u = u_vib u_pm -> at_path d x -> (p < P)%nat -> meq A (coupling_matrix d (u_vib u) p) (v_coupling (x p)).
  Proof.
    intros Hu (D1 & D2 & D3 & D4 & D5 & D6 & D7) Hp b c Hb Hc. rewrite Hu. unfold coupling_matrix, v_coupling, coupling. rewrite D3. unfold u_pm. proj.
    rewrite (proj2 (Nat.ltb_lt b A) Hb). cbn [andb].
    rewrite (Sum_rsum N (fun n => Sum N (fun m => v_quadratic vm n m b c * x p n * x p m))).
    rewrite (rsum_ext N (fun n => Sum N (fun m => v_quadratic vm n m b c * x p n * x p m)) (fun i => 2 * rsum N (fun e => b_q d c e p * (/ 2 * v_quadratic vm i e b c) * b_q d b i p))).
    2:{ intros i Hi. rewrite Sum_rsum, <- rsum_scal. apply rsum_ext. intros e He. rewrite !D6 by auto. lra. }
    rewrite rsum_scal. destruct (Nat.eqb_spec b c) as [->|Hne].
    - rewrite (rsum_zero N (fun i => 0 * _)) by (intros; lra). lra.
    - rewrite Sum_rsum. rewrite (rsum_ext N (fun i => v_linear vm i b c * b_q d b i p) (fun n => v_linear vm n b c * x p n)).
      + lra.
      + intros i Hi. rewrite D6 by auto. reflexivity.
  Qed.
  Lemma v_coupling_sym x b c : (b < A)%nat -> (c < A)%nat -> v_coupling x b c = v_coupling x c b.
  Proof.
    intros Hb Hc. destruct (Hsym b c Hb Hc) as (H1 & H2 & H3). unfold v_coupling, coupling. rewrite !Sum_rsum, (Nat.eqb_sym c b), H1.
    f_equal; [destruct (b =? c)%nat; [reflexivity|]; f_equal; apply rsum_ext; intros n Hn; rewrite H2 by auto; reflexivity|].
    f_equal. apply rsum_ext. intros n Hn. rewrite !Sum_rsum. apply rsum_ext. intros m Hm. rewrite H3 by auto. reflexivity.
  Qed.
  Lemma check_ok u d x : u_vib u = u_vib u_pm -> at_path d x -> check_coupling_symmetric d (u_vib u) = Ok tt.
  Proof.
    intros Hu Hd. unfold check_coupling_symmetric. pose proof Hd as (D1 & _ & _ & D4 & _).
    match goal with |- passert ?b = _ => assert (b = true) as -> end; [|reflexivity].
    rewrite D1, D4. apply all_below_true. intros p Hp. apply all_below_true. intros b Hb. apply all_below_true. intros c Hc.
    rewrite !(coupling_value u d x p Hu Hd Hp) by auto. rewrite (v_coupling_sym _ c b) by auto. unfold close.
    destruct (Rle_dec _ _) as [|n]; [reflexivity|]. exfalso; apply n. rewrite Rminus_diag_eq, Rabs_R0 by reflexivity.
    pose proof (Rabs_pos (v_coupling (x p) b c)). lra.
  Qed.

  Variable eigh : arr2 -> arr1 * arr2.
  (** eigh is right about every matrix that agrees with a coupling matrix of the path *)
  Definition eigh_ok_at (x : arr2) : Prop :=
    forall p V, (p < P)%nat -> meq A V (v_coupling (x p)) -> eigenbasis A V (eigh V).

  Lemma ms_value u d x p : u_vib u = u_vib u_pm -> at_path d x -> eigh_ok_at x -> (p < P)%nat ->
    is_mexp A (fun i j => - tau * v_coupling (x p) i j) (ms eigh u d p).
  Proof.
    intros Hu Hd He Hp. pose proof (coupling_value u d x p Hu Hd Hp) as HV. pose proof Hd as (D1 & _ & _ & _ & D5 & _).
    unfold ms. rewrite D1, D5. eapply mexp_ext; [|apply m_matrix_mexp, (He p), HV; auto].
    intros i j Hi Hj. rewrite HV by auto. reflexivity.
  Qed.

  Definition scale_of (x : arr2) (p : nat) : R := Rmax (top A (r_states rm) (prop_r x p)) (top A A (prop_v tau x p)).
  Lemma scale_of_pos x p : 0 < scale_of x p.
  Proof.
    unfold scale_of. eapply Rlt_le_trans; [|apply Rmax_r]. apply top_pos; [lia|lia|].
    intros a Ha. apply propagator_pos; auto using tau_pos.
  Qed.
  Lemma s12_value u d x p : u_vib u = u_vib u_pm -> u_rho u = u_rho u_pm -> u_crho u = u_crho u_pm -> u_cvib u = u_cvib u_pm ->
    at_path d x -> (p < P)%nat -> s12 u d p = scale_of x p.
  Proof.
    intros H1 H2 H3 H4 Hd Hp. unfold s12, scale_of. pose proof Hd as (D1 & D2 & _). rewrite D1, D2, H4. f_equal; apply top_ext; intros a Ha.
    - apply v_rho_value; auto.
    - apply v_of_value; auto using tau_pos.
  Qed.

  Definition is_g_at (tauV tauO : R) (x : arr2) (y : R) : Prop :=
    is_g A P N (v_omega vm) (v_energy vm) (v_linear vm) (v_quadratic vm) tauV tauO x y.
  Definition rho_at (x : arr2) : R := rho_of A P N (r_omega rm) er (r_linear rm) tau x.

  Lemma y_rho_value u d x : u_vib u = u_vib u_pm -> u_rho u = u_rho u_pm -> u_crho u = u_crho u_pm -> u_cvib u = u_cvib u_pm ->
    at_path d x -> y_rho u d = rho_at x / rprod P (scale_of x).
  Proof.
    intros H1 H2 H3 H4 Hd. unfold y_rho, rho_at, rho_of. pose proof Hd as (D1 & D2 & D3 & D4 & _). rewrite D1, D4. f_equal.
    - rewrite Sum_rsum. apply rsum_ext. intros a Ha. unfold ring. rewrite Prod_rprod. apply rprod_ext. intros p Hp. apply v_rho_value; auto.
    - apply rprod_ext. intros p Hp. apply s12_value; auto.
  Qed.
  Lemma y_g_value u d x t : u_vib u = u_vib u_pm -> u_rho u = u_rho u_pm -> u_crho u = u_crho u_pm -> u_cvib u = u_cvib u_pm ->
    at_path d x -> eigh_ok_at x -> 0 < t ->
    exists g0, is_g_at tau t x g0 /\ y_g eigh u (vib_constants (vib_linear_displacement A vm) t) d = g0 / rprod P (scale_of x).
  Proof.
    intros H1 H2 H3 H4 Hd He Ht. exists (gval A P (ms eigh u d) (prop_v t x)). split.
    - exists (ms eigh u d). split; [intros p Hp; apply ms_value; auto|].
      symmetry. apply gval_trace.
    - unfold y_g. pose proof Hd as (D1 & D2 & D3 & D4 & _). rewrite D1, D4. f_equal.
      + apply gval_ext; [intros; apply meq_refl|]. intros p a Hp Ha. apply v_of_value; auto.
      + apply rprod_ext. intros p Hp. apply s12_value; auto.
  Qed.

  Lemma shapes u d x : u = u_pm \/ u = u_plain -> at_path d x -> shapes_ok u d.
  Proof.
    intros Hu (D1 & D2 & D3 & D4 & _). unfold shapes_ok. rewrite D1, D2, D4. destruct Hu as [-> | ->]; unfold u_plain, u_pm; proj; repeat split; lia || reflexivity.
  Qed.

  (** the path of a draw *)
  Definition path_of (U : arr2) (draw : arr2 * nat) (p n : nat) : R :=
    Sum P (fun k => U p k * fst draw n k) + minimum (r_omega rm) (fun n => r_linear rm n (snd draw)) n.
  Lemma transform_at U draw d : b_states d = A -> b_rho_states d = r_states rm -> b_modes d = N -> b_beads d = P -> b_tau d = tau ->
    (snd draw < r_states rm)%nat ->
    at_path (transform_sampled_coordinates U (fst draw) (r_state_shift (u_rho u_pm) (snd draw)) d) (path_of U draw).
  Proof.
    intros D1 D2 D3 D4 D5 Hs. unfold at_path, transform_sampled_coordinates, with_q. cbn [b_states b_rho_states b_modes b_beads b_tau b_q b_qtemp]. rewrite D2, D4.
    assert (Hp : forall n p, rsum P (fun b => U p b * fst draw n b) + r_state_shift (u_rho u_pm) (snd draw) n = path_of U draw p n).
    { intros n p. unfold path_of. rewrite Sum_rsum. f_equal. unfold u_pm. proj. rewrite (proj2 (Nat.ltb_lt _ _) Hs). unfold minimum, Rdiv. lra. }
    do 6 (split; auto). intros a n p Ha Hn Hp'. rewrite (proj2 (Nat.ltb_lt _ _) Ha). auto.
  Qed.

  Definition good_pm (U : arr2) (draw : arr2 * nat) (y : R * R * R * R) : Prop :=
    let '(r, g, gp, gm) := y in
    let x := path_of U draw in
    exists c g0 gp0 gm0, 0 < c /\ r = c * rho_at x
      /\ is_g_at tau tau x g0 /\ g = c * g0
      /\ is_g_at tau ((beta + db) / INR P) x gp0 /\ gp = c * gp0
      /\ is_g_at tau ((beta - db) / INR P) x gm0 /\ gm = c * gm0.
  Definition good (U : arr2) (draw : arr2 * nat) (y : R * R) : Prop :=
    let x := path_of U draw in
    exists c g0, 0 < c /\ fst y = c * rho_at x /\ is_g_at tau tau x g0 /\ snd y = c * g0.

  Lemma blocks_pm_ok U draws : forall d w,
    b_states d = A -> b_rho_states d = r_states rm -> b_modes d = N -> b_beads d = P -> b_tau d = tau ->
    clean_w d w ->
    Forall (fun draw => (snd draw < r_states rm)%nat /\ eigh_ok_at (path_of U draw)) draws ->
    exists ys, blocks_pm eigh u_pm U draws d w = Ok ys /\ Forall2 (good_pm U) draws ys.
  Proof.
    induction draws as [|[cc s] rest IH]; intros d w D1 D2 D3 D4 D5 Hw HF.
    { exists []; split; [reflexivity|constructor]. }
    inversion HF as [|? ? [Hs He] HF']; subst. cbn [snd] in Hs. cbn [blocks_pm].
    pose proof (transform_at U (cc, s) d D1 D2 D3 D4 D5 Hs) as Hat.
    set (d1 := transform_sampled_coordinates U cc (r_state_shift (u_rho u_pm) s) d) in *.
    change (transform_sampled_coordinates U (fst (cc, s)) (r_state_shift (u_rho u_pm) (snd (cc, s))) d) with d1 in Hat.
    assert (Hw1 : clean_w d1 w) by exact Hw.
    destruct (evaluate_pm_ok eigh u_pm d1 w) as (w' & Hw' & E & _); auto.
    { eapply shapes; eauto. }
    { eapply check_ok; eauto. }
    rewrite E. cbn [bind].
    destruct (IH d1 w') as (ys & E2 & H2); auto; try (destruct Hat as (Q1 & Q2 & Q3 & Q4 & Q5 & _); assumption).
    rewrite E2. cbn [bind]. eexists; split; [reflexivity|]. constructor; auto.
    destruct (y_g_value u_pm d1 (path_of U (cc, s)) tau) as (g0 & G1 & G2); auto using tau_pos.
    destruct (y_g_value u_pm d1 (path_of U (cc, s)) ((beta + db) / INR P)) as (gp0 & P1 & P2); auto.
    { apply Rdiv_lt_0_compat; auto using INR_P. }
    destruct (y_g_value u_pm d1 (path_of U (cc, s)) ((beta - db) / INR P)) as (gm0 & M1 & M2); auto.
    { apply Rdiv_lt_0_compat; auto using INR_P. }
    unfold good_pm. exists (/ rprod P (scale_of (path_of U (cc, s)))), g0, gp0, gm0.
    split. { apply Rinv_0_lt_compat, rprod_pos. intros; apply scale_of_pos. }
    split. { rewrite (y_rho_value u_pm d1 (path_of U (cc, s))); auto. unfold Rdiv. lra. }
    split; auto. split. { unfold u_pm in G2 |- *. cbn [u_cvib] in *. rewrite G2. unfold Rdiv; lra. }
    split; auto. split. { unfold u_pm in P2 |- *. cbn [u_cplus] in *. rewrite P2. unfold Rdiv; lra. }
    split; auto. unfold u_pm in M2 |- *. cbn [u_cminus] in *. rewrite M2. unfold Rdiv; lra.
  Qed.

  Lemma blocks_ok U draws : forall d w,
    b_states d = A -> b_rho_states d = r_states rm -> b_modes d = N -> b_beads d = P -> b_tau d = tau ->
    clean_w d w ->
    Forall (fun draw => (snd draw < r_states rm)%nat /\ eigh_ok_at (path_of U draw)) draws ->
    exists ys, blocks eigh u_plain U draws d w = Ok ys /\ Forall2 (good U) draws ys.
  Proof.
    induction draws as [|[cc s] rest IH]; intros d w D1 D2 D3 D4 D5 Hw HF.
    { exists []; split; [reflexivity|constructor]. }
    inversion HF as [|? ? [Hs He] HF']; subst. cbn [snd] in Hs. cbn [blocks].
    pose proof (transform_at U (cc, s) d D1 D2 D3 D4 D5 Hs) as Hat.
    change (u_rho u_plain) with (u_rho u_pm).
    set (d1 := transform_sampled_coordinates U cc (r_state_shift (u_rho u_pm) s) d) in *.
    change (transform_sampled_coordinates U (fst (cc, s)) (r_state_shift (u_rho u_pm) (snd (cc, s))) d) with d1 in Hat.
    assert (Hw1 : clean_w d1 w) by exact Hw.
    destruct (evaluate_ok eigh u_plain d1 w) as (w' & Hw' & E); auto.
    { eapply shapes; eauto. }
    { eapply check_ok; eauto. }
    rewrite E. cbn [bind].
    destruct (IH d1 w') as (ys & E2 & H2); auto; try (destruct Hat as (Q1 & Q2 & Q3 & Q4 & Q5 & _); assumption).
    rewrite E2. cbn [bind]. eexists; split; [reflexivity|]. constructor; auto.
    destruct (y_g_value u_plain d1 (path_of U (cc, s)) tau) as (g0 & G1 & G2); auto using tau_pos.
    unfold good. exists (/ rprod P (scale_of (path_of U (cc, s)))), g0.
    split. { apply Rinv_0_lt_compat, rprod_pos. intros; apply scale_of_pos. }
    cbn [fst snd].
    split. { rewrite (y_rho_value u_plain d1 (path_of U (cc, s))); auto. unfold Rdiv. lra. }
    split; auto. unfold u_plain, u_pm in G2 |- *. cbn [u_cvib] in *. rewrite G2. unfold Rdiv; lra.
  Qed.
End Run.
