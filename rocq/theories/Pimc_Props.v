(** C23-C30 and C60-C64: the numerical core. *)
From Coq Require Import Reals Lra.
From Verif Require Import Common Common_Proofs Pimc_Model Pimc_Spec Pimc_Proofs Pimc2_Proofs Pimc3_Proofs Pimc4_Proofs Pimc5_Proofs Pimc6_Proofs.
Local Open Scope R_scope.

(** ** Hypotheses shared by the theorems *)

(** A vibronic model and a sampling model as the loaders return them: at least
    one surface, the same modes, positive frequencies, symmetric in the surfaces. *)
Definition valid_models (vm : vib_model) (rm : rho_model) (er : nat -> R) : Prop :=
  (0 < v_states vm)%nat /\ r_modes rm = v_modes vm /\ r_energy rm = Some er
  /\ (forall n, (n < v_modes vm)%nat -> 0 < v_omega vm n) /\ (forall n, (n < v_modes vm)%nat -> 0 < r_omega rm n)
  /\ (forall b c, (b < v_states vm)%nat -> (c < v_states vm)%nat ->
        v_energy vm b c = v_energy vm c b
        /\ (forall n, (n < v_modes vm)%nat -> v_linear vm n b c = v_linear vm n c b)
        /\ (forall n m, (n < v_modes vm)%nat -> (m < v_modes vm)%nat -> v_quadratic vm n m b c = v_quadratic vm n m c b)).
(** np.linalg.eigh returns an orthonormal eigenbasis of the matrix [V0] *)
Definition eigh_right (eigh : (nat -> nat -> R) -> (nat -> R) * (nat -> nat -> R)) (A : nat) (V0 : nat -> nat -> R) : Prop :=
  forall V, (forall i j, (i < A)%nat -> (j < A)%nat -> V i j = V0 i j) -> eigenbasis A V (eigh V).
Definition V_of (vm : vib_model) (x : nat -> R) : nat -> nat -> R := coupling (v_modes vm) (v_energy vm) (v_linear vm) (v_quadratic vm) x.
(** the path a draw (collective coordinates, surface) stands for *)
Definition draw_path (P : nat) (rm : rho_model) (U : nat -> nat -> R) (dr : (nat -> nat -> R) * nat) : nat -> nat -> R :=
  path P U (fst dr) (minimum (r_omega rm) (fun n => r_linear rm n (snd dr))).
Definition draws_ok (eigh : (nat -> nat -> R) -> (nat -> R) * (nat -> nat -> R)) (P : nat) (vm : vib_model) (rm : rho_model) (U : nat -> nat -> R) (draws : list ((nat -> nat -> R) * nat)) : Prop :=
  Forall (fun dr => (snd dr < r_states rm)%nat /\ forall p, (p < P)%nat -> eigh_right eigh (v_states vm) (V_of vm (draw_path P rm U dr p))) draws.
(** g(R) of the vibronic model with exp(-tauV V) and propagators over tauO *)
Definition g_of (P : nat) (vm : vib_model) (tauV tauO : R) (x : nat -> nat -> R) (y : R) : Prop :=
  is_g (v_states vm) P (v_modes vm) (v_omega vm) (v_energy vm) (v_linear vm) (v_quadratic vm) tauV tauO x y.

Lemma Forall2_weaken {A B} (P Q : A -> B -> Prop) l l' : (forall a b, P a b -> Q a b) -> Forall2 P l l' -> Forall2 Q l l'.
Proof. intros H. induction 1; constructor; auto. Qed.
Lemma draws_ok_run eigh P vm rm U draws : draws_ok eigh P vm rm U draws ->
  Forall (fun draw => (snd draw < r_states rm)%nat /\ eigh_ok_at P vm eigh (path_of P rm U draw)) draws.
Proof.
  unfold draws_ok. apply Forall_impl. intros dr [H1 H2]. split; auto. intros p V Hp HV. apply (H2 p Hp V HV).
Qed.

(** a concrete pair of models: two surfaces, one mode, linear coupling *)
Definition vm_ex : vib_model :=
  {| v_states := 2; v_modes := 1; v_omega := fun _ => 1; v_energy := fun a b => if (a =? b)%nat then INR a else 0;
     v_linear := fun _ a b => if (a =? b)%nat then (if (a =? 0)%nat then 1 else - 1) else 3;
     v_quadratic := fun _ _ _ _ => 0; v_delta_weight := fun _ => 0; v_state_shift := fun _ _ => 0 |}.
Definition rm_ex : rho_model :=
  {| r_states := 2; r_modes := 1; r_omega := fun _ => 1; r_energy := Some (fun a => INR a);
     r_linear := fun _ a => if (a =? 0)%nat then 1 else - 1;
     r_delta_weight := fun _ => 0; r_state_weight := fun _ => 0; r_state_shift := fun _ _ => 0 |}.
Definition eigh_ex (V : nat -> nat -> R) : (nat -> R) * (nat -> nat -> R) :=
  (fun k => if (k =? 0)%nat then V 0%nat 1%nat else - V 0%nat 1%nat,
   fun i k => if ((i =? 1) && (k =? 1))%nat then - / sqrt 2 else / sqrt 2).
Lemma two_cases i : (i < 2)%nat -> i = 0%nat \/ i = 1%nat. Proof. lia. Qed.
Lemma inv_sqrt2 : / sqrt 2 * / sqrt 2 = / 2.
Proof. rewrite <- Rinv_mult. rewrite sqrt_sqrt; lra. Qed.
Example vm_ex_valid : valid_models vm_ex rm_ex (fun a => INR a).
Proof.
  unfold valid_models. cbn. repeat split; try lia; intros; try lra; auto;
  destruct (two_cases b H) as [-> | ->]; destruct (two_cases c H0) as [-> | ->]; reflexivity.
Qed.
Lemma eigh_ex_right x : eigh_right eigh_ex 2 (V_of vm_ex x).
Proof.
  intros V HV. unfold eigenbasis, eigh_ex.
  assert (H01 : V 0%nat 1%nat = 3 * x 0%nat). { rewrite HV by lia. unfold V_of, coupling, Sum. simpl. lra. }
  assert (H10 : V 1%nat 0%nat = 3 * x 0%nat). { rewrite HV by lia. unfold V_of, coupling, Sum. simpl. lra. }
  assert (H00 : V 0%nat 0%nat = 0). { rewrite HV by lia. unfold V_of, coupling, Sum. simpl. lra. }
  assert (H11 : V 1%nat 1%nat = 0). { rewrite HV by lia. unfold V_of, coupling, Sum. simpl. lra. }
  pose proof inv_sqrt2 as Hs. set (s := / sqrt 2) in *.
  assert (Hq : s * (3 * x 0%nat) * s = 3 / 2 * x 0%nat) by (replace (s * (3 * x 0%nat) * s) with (s * s * (3 * x 0%nat)) by ring; rewrite Hs; lra).
  split; [|split]; intros i j Hi Hj; destruct (two_cases i Hi) as [-> | ->]; destruct (two_cases j Hj) as [-> | ->];
    unfold Sum, one; simpl; rewrite ?H00, ?H01, ?H10, ?H11; lra.
Qed.
Example draws_ex_ok P U (dr : (nat -> nat -> R) * nat) : (snd dr < 2)%nat -> draws_ok eigh_ex P vm_ex rm_ex U [dr].
Proof. intros H. constructor; [|constructor]. split; [exact H|]. intros p _. apply eigh_ex_right. Qed.

(** ** C23 *)

(** Full description of a plus/minus run: for every list of draws the loop
    succeeds and the four numbers of each sample are one common positive
    multiple of rho(R), g(R), g+(R) and g-(R) of that sample's path.  rho(R)
    runs over the surfaces of the vibronic model (see C61). *)
Theorem C23_block_compute_pm_values eigh P beta db vm rm er U draws u :
  (3 <= P)%nat -> 0 < beta -> 0 < beta + db -> 0 < beta - db ->
  valid_models vm rm er -> (v_states vm <= r_states rm)%nat -> draws_ok eigh P vm rm U draws ->
  prepare_pm P beta db vm rm = Ok u ->
  exists ys, blocks_pm eigh u U draws (new_box P beta vm rm) omats0 = Ok ys
    /\ Forall2 (fun dr y => let '(r, g, gp, gm) := y in let x := draw_path P rm U dr in let tau := beta / INR P in
         exists c g0 gp0 gm0, 0 < c
           /\ r = c * rho_of (v_states vm) P (v_modes vm) (r_omega rm) er (r_linear rm) tau x
           /\ g_of P vm tau tau x g0 /\ g = c * g0
           /\ g_of P vm tau ((beta + db) / INR P) x gp0 /\ gp = c * gp0
           /\ g_of P vm tau ((beta - db) / INR P) x gm0 /\ gm = c * gm0) draws ys.
Proof.
  intros HP Hb Hp Hm (HA & HN & He & Hw & Hr & Hs) HAr Hd Hu. rewrite prepare_pm_ok in Hu by auto. injection Hu as <-.
  apply (blocks_pm_ok P beta db vm rm er HP); auto.
  - repeat split; apply zero_clean.
  - apply draws_ok_run; auto.
Qed.
Print Assumptions C23_block_compute_pm_values.

(** The same of block_compute. *)
Theorem C23_block_compute_values eigh P beta vm rm er U draws u :
  (3 <= P)%nat -> 0 < beta ->
  valid_models vm rm er -> (v_states vm <= r_states rm)%nat -> draws_ok eigh P vm rm U draws ->
  prepare P beta vm rm = Ok u ->
  exists ys, blocks eigh u U draws (new_box P beta vm rm) omats0 = Ok ys
    /\ Forall2 (fun dr y => let x := draw_path P rm U dr in let tau := beta / INR P in
         exists c g0, 0 < c
           /\ fst y = c * rho_of (v_states vm) P (v_modes vm) (r_omega rm) er (r_linear rm) tau x
           /\ g_of P vm tau tau x g0 /\ snd y = c * g0) draws ys.
Proof.
  intros HP Hb (HA & HN & He & Hw & Hr & Hs) HAr Hd Hu. rewrite (prepare_ok P beta 0) in Hu by auto. injection Hu as <-.
  apply (blocks_ok P beta 0 vm rm er HP); auto.
  - repeat split; apply zero_clean.
  - apply draws_ok_run; auto.
Qed.
Print Assumptions C23_block_compute_values.

(** The stored ratios are those of the unscaled functions. *)
Theorem C23_ratios_not_scaled eigh P beta db vm rm er U draws u ys :
  (3 <= P)%nat -> 0 < beta -> 0 < beta + db -> 0 < beta - db ->
  valid_models vm rm er -> (v_states vm <= r_states rm)%nat -> draws_ok eigh P vm rm U draws ->
  prepare_pm P beta db vm rm = Ok u ->
  blocks_pm eigh u U draws (new_box P beta vm rm) omats0 = Ok ys ->
  Forall2 (fun dr y => let '(r, g, gp, gm) := y in let x := draw_path P rm U dr in let tau := beta / INR P in
    let rho := rho_of (v_states vm) P (v_modes vm) (r_omega rm) er (r_linear rm) tau x in
    0 < r /\ 0 < rho /\ exists g0 gp0 gm0,
      g_of P vm tau tau x g0 /\ g / r = g0 / rho
      /\ g_of P vm tau ((beta + db) / INR P) x gp0 /\ gp / r = gp0 / rho
      /\ g_of P vm tau ((beta - db) / INR P) x gm0 /\ gm / r = gm0 / rho) draws ys.
Proof.
  intros HP Hb Hp Hm Hv HAr Hd Hu Hys.
  destruct (C23_block_compute_pm_values eigh P beta db vm rm er U draws u) as (ys' & E & HF); auto.
  rewrite E in Hys. injection Hys as <-. destruct Hv as (HA & HN & He & Hw & Hr & Hs).
  revert HF. apply Forall2_weaken. intros dr [[[r g] gp] gm] (c & g0 & gp0 & gm0 & Hc & -> & G1 & -> & P1 & -> & M1 & ->).
  assert (0 < rho_of (v_states vm) P (v_modes vm) (r_omega rm) er (r_linear rm) (beta / INR P) (draw_path P rm U dr)) as Hrho.
  { apply rho_of_pos; auto. apply Rdiv_lt_0_compat; auto. apply lt_0_INR; lia. }
  split; [apply Rmult_lt_0_compat; auto|]. split; auto. exists g0, gp0, gm0.
  repeat split; auto; field; lra.
Qed.
Print Assumptions C23_ratios_not_scaled.
Example C23_example : exists u ys, prepare_pm 3 1 (1 / 10) vm_ex rm_ex = Ok u /\
  blocks_pm eigh_ex u (fun _ _ => 1) [(fun _ k => INR k, 1%nat)] (new_box 3 1 vm_ex rm_ex) omats0 = Ok ys /\ length ys = 1%nat.
Proof.
  eexists. destruct (C23_block_compute_pm_values eigh_ex 3 1 (1 / 10) vm_ex rm_ex (fun a => INR a) (fun _ _ => 1) [(fun _ k => INR k, 1%nat)]
    (u_pm 3 1 (1 / 10) vm_ex rm_ex)) as (ys & E & HF); try lra; auto using vm_ex_valid.
  - apply draws_ex_ok. simpl; lia.
  - exists ys. split; [apply prepare_pm_ok; lia|]. split; [exact E|]. inversion HF as [|? ? ? ? ? H2]; subst. inversion H2. reflexivity.
Qed.

(** Dividing by any factors only divides rho and g by their product. *)
Theorem C23_scaling_factors_cancel d eig c s om_rho om_vib :
  (forall p, (p < b_beads d)%nat -> s p <> 0) -> build_denominator (b_beads d) c om_rho <> 0 ->
  build_numerator d eig (scale_o_matrix s om_vib) / build_denominator (b_beads d) c (scale_o_matrix s om_rho)
  = build_numerator d eig om_vib / build_denominator (b_beads d) c om_rho.
Proof.
  intros Hs Hd. rewrite numerator_scale, denominator_scale.
  assert (rprod (b_beads d) s <> 0).
  { clear Hd. induction (b_beads d) as [|n IH]; simpl; [lra|]. apply Rmult_integral_contrapositive_currified; auto. }
  field. auto.
Qed.
Print Assumptions C23_scaling_factors_cancel.

(** After the scaling every entry of both O matrices lies between 0 and 1 and
    for each bead some entry is 1; this holds in every block. *)
Theorem C23_scaled_entries_bounded eigh P beta db vm rm er u w q qt d' w' y :
  (3 <= P)%nat -> 0 < beta -> valid_models vm rm er -> (v_states vm <= r_states rm)%nat ->
  prepare_pm P beta db vm rm = Ok u -> reachable eigh u (new_box P beta vm rm) w ->
  evaluate_pm eigh u (with_q (new_box P beta vm rm) q qt) w = Ok (d', w', y) ->
  forall p, (p < P)%nat ->
    (forall a b, (a < r_states rm)%nat -> (b < r_states rm)%nat -> 0 <= o_rho w' p a b <= 1)
    /\ (forall a b, (a < v_states vm)%nat -> (b < v_states vm)%nat -> 0 <= o_vib w' p a b <= 1)
    /\ exists a, (a < v_states vm)%nat /\ (o_rho w' p a a = 1 \/ o_vib w' p a a = 1).
Proof.
  intros HP Hb (HA & HN & He & Hw & Hr & Hs) HAr Hu Hreach E p Hp. rewrite prepare_pm_ok in Hu by auto. injection Hu as <-.
  assert (Hsh : shapes_ok (u_pm P beta db vm rm) (new_box P beta vm rm)).
  { unfold shapes_ok. cbn. repeat split; lia || reflexivity. }
  pose proof (reachable_clean _ _ _ _ Hsh Hreach) as Hc.
  assert (Ht : 0 < beta / INR P) by (apply Rdiv_lt_0_compat; auto; apply lt_0_INR; lia).
  edestruct (evaluate_pm_bounds eigh (u_pm P beta db vm rm) (with_q (new_box P beta vm rm) q qt) w) as (B1 & B2 & B3); eauto.
  - intros a. apply prefactor_pos; auto. change (forall n, (n < r_modes rm)%nat -> 0 < r_omega rm n). rewrite HN. auto.
  - intros a. apply prefactor_pos; auto.
  - cbn in B1, B2, B3. split; [|split].
    + intros a b Ha Hbb. apply B1; auto.
    + intros a b Ha Hbb. apply B2; auto.
    + apply B3; auto.
Qed.
Print Assumptions C23_scaled_entries_bounded.

(** ** C24 *)
Theorem C24_vibronic_square vm tau q a m c :
  vib_precompute (v_states vm) tau vm = (m, c) -> (a < v_states vm)%nat ->
  (forall n, (n < v_modes vm)%nat -> 0 < v_omega vm n) ->
  v_energy vm a a + Sum (v_modes vm) (fun n => v_omega vm n * q n ^ 2) / 2 + Sum (v_modes vm) (fun n => v_linear vm n a a * q n)
  = (v_energy vm a a + v_delta_weight m a) + Sum (v_modes vm) (fun n => v_omega vm n * (q n - v_state_shift m a n) ^ 2) / 2.
Proof.
  intros H Ha Hw. unfold vib_precompute in H. apply (f_equal fst) in H. cbn [fst] in H. subst m. proj.
  rewrite (proj2 (Nat.ltb_lt _ _) Ha). rewrite (square _ _ (fun n => v_linear vm n a a)) by auto.
  rewrite (lowering_rsum (v_modes vm) (v_omega vm) (fun n => v_linear vm n a a)). f_equal. f_equal.
  rewrite !Sum_rsum. apply rsum_ext. intros n Hn. unfold minimum. pose proof (Hw n Hn). replace (- v_linear vm n a a / v_omega vm n) with (- (v_linear vm n a a / v_omega vm n)) by (unfold Rdiv; lra). reflexivity.
Qed.
Print Assumptions C24_vibronic_square.

(** What is left in the working copy: zero diagonal, everything else untouched. *)
Theorem C24_vibronic_folded vm tau m c : vib_precompute (v_states vm) tau vm = (m, c) ->
  forall a b, (a < v_states vm)%nat -> (b < v_states vm)%nat ->
    v_energy m a b = (if Nat.eq_dec a b then 0 else v_energy vm a b)
    /\ (forall n, v_linear m n a b = (if Nat.eq_dec a b then 0 else v_linear vm n a b))
    /\ v_quadratic m = v_quadratic vm /\ v_omega m = v_omega vm.
Proof.
  intros H a b Ha Hb. unfold vib_precompute in H. apply (f_equal fst) in H. cbn [fst] in H. subst m. proj.
  rewrite (proj2 (Nat.ltb_lt _ _) Ha). cbn [andb]. destruct (Nat.eq_dec a b) as [->|Hne].
  - rewrite Nat.eqb_refl. auto.
  - destruct (Nat.eqb_spec a b); [congruence|]. auto.
Qed.
Print Assumptions C24_vibronic_folded.

Theorem C24_sampling_square rm er beta tau q a m c :
  rho_precompute beta tau rm = (m, c) -> r_energy rm = Some er -> (a < r_states rm)%nat ->
  (forall n, (n < r_modes rm)%nat -> 0 < r_omega rm n) ->
  (er a + Sum (r_modes rm) (fun n => r_omega rm n * q n ^ 2) / 2 + Sum (r_modes rm) (fun n => r_linear rm n a * q n)
   = (er a + r_delta_weight m a) + Sum (r_modes rm) (fun n => r_omega rm n * (q n - r_state_shift m a n) ^ 2) / 2)
  /\ (forall n, r_linear m n a = 0) /\ r_energy m = None.
Proof.
  intros H He Ha Hw. unfold rho_precompute in H. apply (f_equal fst) in H. cbn [fst] in H. subst m. proj.
  rewrite (proj2 (Nat.ltb_lt _ _) Ha). destruct (Nat.ltb_spec 0 (r_states rm)); [|lia]. split; [|auto].
  rewrite (square _ _ (fun n => r_linear rm n a)) by auto.
  rewrite (lowering_rsum (r_modes rm) (r_omega rm) (fun n => r_linear rm n a)). f_equal. f_equal.
  rewrite !Sum_rsum. apply rsum_ext. intros n Hn. unfold minimum. replace (- r_linear rm n a / r_omega rm n) with (- (r_linear rm n a / r_omega rm n)) by (unfold Rdiv; lra). reflexivity.
Qed.
Print Assumptions C24_sampling_square.
Example C24_example : v_delta_weight (fst (vib_precompute 2 (1 / 3) vm_ex)) 0%nat = - / 2 /\ v_state_shift (fst (vib_precompute 2 (1 / 3) vm_ex)) 0%nat 0%nat = - 1
  /\ v_linear (fst (vib_precompute 2 (1 / 3) vm_ex)) 0%nat 0%nat 1%nat = 3.
Proof. cbn. repeat split; try lra; field. Qed.

(** ** C25 *)
Theorem C25_weights_distribution rm er beta tau : 0 < beta -> (0 < r_states rm)%nat -> r_energy rm = Some er ->
  (forall n, (n < r_modes rm)%nat -> 0 < r_omega rm n) ->
  let w := r_state_weight (fst (rho_precompute beta tau rm)) in
  (forall a, 0 < w a) /\ Sum (r_states rm) w = 1
  /\ (forall a b, w a / w b = exp (- beta * ((er a + lowering (r_modes rm) (r_omega rm) (fun n => r_linear rm n a))
                                         - (er b + lowering (r_modes rm) (r_omega rm) (fun n => r_linear rm n b))))).
Proof.
  intros Hb HA He Hw w.
  assert (Hv : forall a, w a = bolt beta rm er a / rsum (r_states rm) (bolt beta rm er)) by (intros; apply weight_value; auto).
  assert (Hp : 0 < rsum (r_states rm) (bolt beta rm er)) by (apply rsum_pos; auto; intros; apply exp_pos).
  assert (Hbp : forall a, 0 < bolt beta rm er a) by (intros; apply exp_pos).
  split; [|split].
  - intros a. rewrite Hv. apply Rdiv_lt_0_compat; auto.
  - rewrite Sum_rsum, (rsum_ext _ w (fun a => bolt beta rm er a * / rsum (r_states rm) (bolt beta rm er))) by (intros; apply Hv).
    rewrite rsum_scal_r. field. lra.
  - intros a b. rewrite !Hv. pose proof (Hbp a). pose proof (Hbp b).
    transitivity (bolt beta rm er a * / bolt beta rm er b); [field; lra|].
    unfold bolt. rewrite <- exp_Ropp, <- exp_plus. apply (f_equal exp). lra.
Qed.
Print Assumptions C25_weights_distribution.

(** Adding one number to all energies changes no weight. *)
Theorem C25_weights_shift rm rm' er e0 beta tau : 0 < beta -> (0 < r_states rm)%nat -> r_energy rm = Some er ->
  (forall n, (n < r_modes rm)%nat -> 0 < r_omega rm n) ->
  r_energy rm' = Some (fun a => er a + e0) -> r_states rm' = r_states rm -> r_modes rm' = r_modes rm ->
  r_omega rm' = r_omega rm -> r_linear rm' = r_linear rm ->
  forall a, r_state_weight (fst (rho_precompute beta tau rm')) a = r_state_weight (fst (rho_precompute beta tau rm)) a.
Proof.
  intros Hb HA He Hw He' H1 H2 H3 H4 a.
  rewrite (weight_value beta tau rm er) by auto. rewrite (weight_value beta tau rm' (fun a => er a + e0)); auto; try (rewrite ?H1, ?H2, ?H3; auto).
  assert (Hf : forall b, bolt beta rm' (fun a => er a + e0) b = bolt beta rm er b * exp (- beta * e0)).
  { intros b. unfold bolt. rewrite H2, H3, H4, <- exp_plus. apply (f_equal exp). lra. }
  rewrite Hf, (rsum_ext _ _ (fun b => bolt beta rm er b * exp (- beta * e0))) by (intros; apply Hf).
  rewrite rsum_scal_r. assert (0 < rsum (r_states rm) (bolt beta rm er)) by (apply rsum_pos; auto; intros; apply exp_pos).
  pose proof (exp_pos (- beta * e0)). field. lra.
Qed.
Print Assumptions C25_weights_shift.
Example C25_example : let w := r_state_weight (fst (rho_precompute 1 (1 / 3) rm_ex)) in w 0%nat / w 1%nat = exp 1.
Proof.
  intros w. destruct (C25_weights_distribution rm_ex (fun a => INR a) 1 (1 / 3)) as (_ & _ & H); try lra; [simpl; lia|reflexivity|intros; simpl; lra|].
  unfold w. rewrite (H 0%nat 1%nat). apply (f_equal exp). unfold lowering, Sum. simpl. lra.
Qed.

(** ** C26 *)
Theorem C26_widths_defined P C : circulant_matrix P = Ok C ->
  forall lam v, (exists i, (i < P)%nat /\ v i <> 0) -> (forall i, (i < P)%nat -> Sum P (fun j => C i j * v j) = lam * v i) ->
  -2 <= lam <= 2
  /\ forall beta tau rm a n k, 0 < tau -> (forall n, (n < r_modes rm)%nat -> 0 < r_omega rm n) -> (n < r_modes rm)%nat ->
     0 < inverse_covariance (snd (rho_precompute beta tau rm)) (fun _ => lam) a n k.
Proof.
  intros H lam v Hv He. unfold circulant_matrix in H. destruct (Nat.leb_spec 3 P) as [HP|]; [|discriminate]. injection H as <-.
  assert (Hl : -2 <= lam <= 2).
  { apply (ring_eigenvalue P lam v HP Hv). intros i Hi. rewrite <- He, Sum_rsum by auto. apply rsum_ext. intros j Hj. rewrite circulant_ring; auto. }
  split; auto. intros beta tau rm a n k Ht Hw Hn. unfold inverse_covariance, rho_precompute. cbn [snd t_coth t_csch temperature_dependent].
  apply icov_pos; auto. apply Hw; auto.
Qed.
Print Assumptions C26_widths_defined.
Theorem C26_fewer_than_three_rejected P beta db vm rm : (P < 3)%nat ->
  circulant_matrix P = Raise AssertionError /\ prepare_pm P beta db vm rm = Raise AssertionError /\ prepare P beta vm rm = Raise AssertionError.
Proof. intros H. unfold prepare_pm, prepare, circulant_matrix. destruct (Nat.leb_spec 3 P); [lia|]. auto. Qed.
Print Assumptions C26_fewer_than_three_rejected.
(** The matrix is the adjacency matrix of the ring. *)
Theorem C26_circulant_is_ring P : (3 <= P)%nat -> exists C, circulant_matrix P = Ok C /\
  forall i j, (i < P)%nat -> (j < P)%nat -> C i j = ring_matrix P i j.
Proof.
  intros HP. exists (circulant (defining_vector P)). unfold circulant_matrix. destruct (Nat.leb_spec 3 P); [|lia]. split; auto.
  intros; apply circulant_ring; auto.
Qed.
Print Assumptions C26_circulant_is_ring.
Example C26_example : exists C, circulant_matrix 4 = Ok C /\ forall i, (i < 4)%nat -> Sum 4 (fun j => C i j * 1) = 2 * 1.
Proof.
  eexists. split; [reflexivity|]. intros i Hi. unfold Sum, circulant, defining_vector.
  destruct i as [|[|[|[|i]]]]; simpl; lra || lia.
Qed.

(** ** C27 *)
Theorem C27_coordinates_restored d c om ss shift d' om' : build_o_matrix d c om ss shift = Ok (d', om') -> d' = d.
Proof. apply build_o_any. Qed.
Print Assumptions C27_coordinates_restored.
(** ... hence by any sequence of builds *)
Theorem C27_sequence_of_builds ms d d' :
  fold_left (fun (s : res box) (m : tdc * arr3 * nat * arr2) =>
     let '(c, om, ss, shift) := m in do x <- s; do (x', _) <- build_o_matrix x c om ss shift; Ok x') ms (Ok d) = Ok d' -> d' = d.
Proof.
  revert d. induction ms as [|[[[c om] ss] shift] ms IH]; simpl; intros d H; [congruence|].
  destruct (build_o_matrix d c om ss shift) as [[x o]|e] eqn:E; cbn [bind] in H.
  - apply build_o_any in E. subst x. auto.
  - exfalso. clear - H. induction ms as [|[[[c om] ss] shift] ms IH]; simpl in H; [discriminate|auto].
Qed.
Print Assumptions C27_sequence_of_builds.
(** rho, vib, plus and minus of one sample are therefore built from the same
    coordinates: the coordinates are unchanged after the whole evaluation. *)
Theorem C27_evaluation_restores eigh u d w d' w' y : evaluate_pm eigh u d w = Ok (d', w', y) -> d' = d.
Proof.
  unfold evaluate_pm. intros H.
  destruct (build_o_matrix d _ (o_rho w) _ _) as [[d1 o1]|] eqn:E1; [|discriminate]. cbn [bind] in H. apply build_o_any in E1. subst d1.
  destruct (build_o_matrix d _ (o_vib w) _ _) as [[d2 o2]|] eqn:E2; [|discriminate]. cbn [bind] in H. apply build_o_any in E2. subst d2.
  destruct (diagonalize_coupling_matrix eigh d _); [|discriminate]. cbn [bind] in H.
  destruct (build_o_matrix d _ (o_plus w) _ _) as [[d3 o3]|] eqn:E3; [|discriminate]. cbn [bind] in H. apply build_o_any in E3. subst d3.
  destruct (build_o_matrix d _ (o_minus w) _ _) as [[d4 o4]|] eqn:E4; [|discriminate]. cbn [bind] in H. apply build_o_any in E4. subst d4.
  injection H as -> _ _. reflexivity.
Qed.
Print Assumptions C27_evaluation_restores.
Example C27_example : exists d om, build_o_matrix (new_box 3 1 vm_ex rm_ex) (vib_constants vm_ex 1) zero3 2 (fun _ _ => 5) = Ok (d, om).
Proof.
  destruct (build_o_ok (new_box 3 1 vm_ex rm_ex) (vib_constants vm_ex 1) zero3 2 (fun _ _ => 5)) as (om & E & _); auto using zero_clean.
  eauto.
Qed.

(** ** C28 *)
(** no coupling between surfaces *)
Definition uncoupled (vm : vib_model) : Prop :=
  forall b c, (b < v_states vm)%nat -> (c < v_states vm)%nat ->
    (b <> c -> v_energy vm b c = 0 /\ forall n, (n < v_modes vm)%nat -> v_linear vm n b c = 0)
    /\ forall n m, (n < v_modes vm)%nat -> (m < v_modes vm)%nat -> v_quadratic vm n m b c = 0.
(** the sampling model is the diagonal of the vibronic model *)
Definition is_diagonal_of (rm : rho_model) (er : nat -> R) (vm : vib_model) : Prop :=
  r_states rm = v_states vm /\ (forall n, (n < v_modes vm)%nat -> r_omega rm n = v_omega vm n)
  /\ (forall a, (a < v_states vm)%nat -> er a = v_energy vm a a)
  /\ (forall n a, (n < v_modes vm)%nat -> (a < v_states vm)%nat -> r_linear rm n a = v_linear vm n a a).
Theorem C28_exact_sampling_ratio_one eigh P beta vm rm er U draws u ys :
  (3 <= P)%nat -> 0 < beta -> valid_models vm rm er -> uncoupled vm -> is_diagonal_of rm er vm ->
  draws_ok eigh P vm rm U draws -> prepare P beta vm rm = Ok u ->
  blocks eigh u U draws (new_box P beta vm rm) omats0 = Ok ys ->
  length ys = length draws /\ Forall (fun y => fst y <> 0 /\ snd y / fst y = 1) ys.
Proof.
  intros HP Hb Hv Hun (D1 & D2 & D3 & D4) Hd Hu Hys.
  destruct (C23_block_compute_values eigh P beta vm rm er U draws u) as (ys' & E & HF); auto; [lia|].
  rewrite E in Hys. injection Hys as <-. destruct Hv as (HA & HN & He & Hw & Hr & Hs).
  split; [symmetry; eapply Forall2_length; eauto|].
  clear E. induction HF as [|dr [r g] draws ys (c & g0 & Hc & Hr0 & Hg & Hg0) HF IH]; constructor.
  2:{ apply IH. inversion Hd; auto. }
  cbn [fst snd] in *. apply is_g_uncoupled in Hg.
  - rewrite <- (rho_of_ext _ _ _ (r_omega rm) _ er _ (r_linear rm)) in Hg by auto. rewrite <- Hg in Hr0.
    assert (0 < g0). { rewrite Hg. apply rho_of_pos; auto. apply Rdiv_lt_0_compat; auto. apply lt_0_INR; lia. }
    rewrite Hr0, Hg0. assert (0 < c * g0) by (apply Rmult_lt_0_compat; auto). split; [lra|]. field. lra.
  - intros p b c0 Hp Hb' Hc'. destruct (Hun b c0 Hb' Hc') as [H1 H2]. unfold coupling. rewrite !Sum_rsum.
    rewrite (rsum_zero _ (fun n => Sum _ _)).
    2:{ intros n Hn. rewrite Sum_rsum. apply rsum_zero. intros m Hm. rewrite H2 by auto. lra. }
    destruct (Nat.eqb_spec b c0) as [|Hne]; [lra|]. destruct (H1 Hne) as [-> Hl].
    rewrite rsum_zero; [lra|]. intros n Hn. rewrite Hl by auto. lra.
Qed.
Print Assumptions C28_exact_sampling_ratio_one.
(** hence the estimate of Z relative to the sampling model is one and its spread zero *)
Theorem C28_estimate_one eigh P beta vm rm er U draws u ys :
  (3 <= P)%nat -> 0 < beta -> valid_models vm rm er -> uncoupled vm -> is_diagonal_of rm er vm ->
  draws_ok eigh P vm rm U draws -> draws <> [] -> prepare P beta vm rm = Ok u ->
  blocks eigh u U draws (new_box P beta vm rm) omats0 = Ok ys ->
  fold_right Rplus 0 (map (fun y => snd y / fst y) ys) / INR (length ys) = 1
  /\ fold_right Rplus 0 (map (fun y => (snd y / fst y - 1) ^ 2) ys) = 0.
Proof.
  intros HP Hb Hv Hun Hdg Hd Hne Hu Hys.
  destruct (C28_exact_sampling_ratio_one eigh P beta vm rm er U draws u ys) as [Hl HF]; auto.
  assert (Hys' : ys <> []) by (destruct ys; [destruct draws; simpl in *; congruence|discriminate]).
  clear - HF Hys'. split.
  - assert (fold_right Rplus 0 (map (fun y => snd y / fst y) ys) = INR (length ys)) as ->.
    { clear Hys'. induction HF as [|y ys [_ Hy] HF IH]; [reflexivity|]. cbn [map fold_right length]. rewrite IH, Hy, S_INR. lra. }
    field. apply not_0_INR. destruct ys; simpl; congruence || lia.
  - induction HF as [|y ys [_ Hy] HF IH]; [reflexivity|]. cbn [map fold_right]. rewrite Hy.
    destruct ys as [|y' ys]; [simpl; lra|]. rewrite IH by discriminate. simpl. lra.
Qed.
Print Assumptions C28_estimate_one.
Definition vm_un : vib_model :=
  {| v_states := 2; v_modes := 1; v_omega := fun _ => 1; v_energy := fun a b => if (a =? b)%nat then INR a else 0;
     v_linear := fun _ a b => if (a =? b)%nat then (if (a =? 0)%nat then 1 else - 1) else 0;
     v_quadratic := fun _ _ _ _ => 0; v_delta_weight := fun _ => 0; v_state_shift := fun _ _ => 0 |}.
Example C28_example P U dr : (snd dr < 2)%nat ->
  valid_models vm_un rm_ex (fun a => INR a) /\ uncoupled vm_un /\ is_diagonal_of rm_ex (fun a => INR a) vm_un
  /\ draws_ok (fun _ => (fun _ => 0, one)) P vm_un rm_ex U [dr].
Proof.
  intros Hdr. split; [|split; [|split]].
  - unfold valid_models. cbn. repeat split; try lia; intros; try lra; auto;
      destruct (two_cases b H) as [-> | ->]; destruct (two_cases c H0) as [-> | ->]; reflexivity.
  - intros b c Hb Hc. split; [|reflexivity]. intros Hne. cbn. destruct (Nat.eqb_spec b c); [congruence|auto].
  - unfold is_diagonal_of. cbn. repeat split; auto; intros; rewrite Nat.eqb_refl; reflexivity.
  - constructor; [|constructor]. split; [exact Hdr|]. intros p _ V HV.
    assert (HV0 : forall i j, (i < 2)%nat -> (j < 2)%nat -> V i j = 0).
    { intros i j Hi Hj. rewrite HV by auto. unfold V_of, coupling, Sum. cbn. destruct (Nat.eqb_spec i j); lra. }
    unfold eigenbasis. split; [|split]; intros i j Hi Hj; destruct (two_cases i Hi) as [-> | ->]; destruct (two_cases j Hj) as [-> | ->];
      unfold Sum, one; simpl; rewrite ?HV0 by lia; lra.
Qed.

(** ** C29 *)
(** Renumbering the beads cyclically, in a block reached after any number of
    other blocks, gives the very same four numbers. *)
Theorem C29_bead_rotation eigh P beta db vm rm er u w q qt k d' w' y :
  valid_models vm rm er -> (v_states vm <= r_states rm)%nat -> prepare_pm P beta db vm rm = Ok u ->
  reachable eigh u (new_box P beta vm rm) w ->
  evaluate_pm eigh u (with_q (new_box P beta vm rm) q qt) w = Ok (d', w', y) ->
  exists d2 w2, evaluate_pm eigh u (with_q (new_box P beta vm rm) (fun a n p => q a n ((p + k) mod P)%nat) (fun a n p => qt a n ((p + k) mod P)%nat)) w = Ok (d2, w2, y).
Proof.
  intros (HA & HN & _) HAr Hu Hreach E.
  assert (HP : (3 <= P)%nat). { unfold prepare_pm, circulant_matrix in Hu. destruct (Nat.leb_spec 3 P); [auto|discriminate]. }
  rewrite prepare_pm_ok in Hu by auto. injection Hu as <-.
  assert (Hsh : shapes_ok (u_pm P beta db vm rm) (new_box P beta vm rm)).
  { unfold shapes_ok. cbn. repeat split; lia || reflexivity. }
  pose proof (reachable_clean _ _ _ _ Hsh Hreach) as Hc.
  pose proof (C27_evaluation_restores _ _ _ _ _ _ _ E) as ->.
  destruct (evaluate_rot eigh (u_pm P beta db vm rm) k (with_q (new_box P beta vm rm) q qt) w w' y) as (w2 & E2); auto.
  eexists; exists w2. exact E2.
Qed.
Print Assumptions C29_bead_rotation.
Example C29_example : exists d w y, evaluate_pm eigh_ex (u_pm 3 1 (1 / 10) vm_ex rm_ex) (with_q (new_box 3 1 vm_ex rm_ex) (fun a n p => INR p) (fun a n p => INR p)) omats0 = Ok (d, w, y).
Proof.
  pose proof C23_example as (u & ys & Hu & E & _). rewrite prepare_pm_ok in Hu by lia. injection Hu as <-.
  assert (Hs : shapes_ok (u_pm 3 1 (1 / 10) vm_ex rm_ex) (with_q (new_box 3 1 vm_ex rm_ex) (fun a n p => INR p) (fun a n p => INR p))).
  { unfold shapes_ok. cbn. repeat split; lia || reflexivity. }
  destruct (evaluate_pm_ok eigh_ex (u_pm 3 1 (1 / 10) vm_ex rm_ex) (with_q (new_box 3 1 vm_ex rm_ex) (fun a n p => INR p) (fun a n p => INR p)) omats0 Hs) as (w' & _ & E' & _).
  - repeat split; apply zero_clean.
  - destruct vm_ex_valid as (HA & HN & He & Hw & Hr & Hsy).
    apply (check_ok 3 1 (1 / 10) vm_ex rm_ex) with (x := fun p n => INR p); auto. unfold at_path. repeat split.
  - eauto.
Qed.

(** ** C30 *)
(** What the plus numerator is: exp(-tau V) with the unshifted tau (this is the
    C23 theorem).  For one surface it equals the g of a run at beta + db exactly
    when the coupling summed over the beads is zero. *)
Theorem C30_one_surface P vm beta db x gp gp' : (0 < P)%nat -> v_states vm = 1%nat -> db <> 0 -> 0 < beta + db ->
  (forall n, (n < v_modes vm)%nat -> 0 < v_omega vm n) ->
  g_of P vm (beta / INR P) ((beta + db) / INR P) x gp ->
  g_of P vm ((beta + db) / INR P) ((beta + db) / INR P) x gp' ->
  (gp = gp' <-> Sum P (fun p => V_of vm (x p) 0 0) = 0)
  /\ gp' = exp (- (db / INR P) * Sum P (fun p => V_of vm (x p) 0 0)) * gp.
Proof.
  intros HP H1 Hdb Hb Hw G G'. unfold g_of in *. rewrite H1 in *. apply is_g_one in G, G'. rewrite Sum_rsum. unfold V_of.
  set (s := rsum P _) in *.
  assert (Hr : 0 < ring P (v_modes vm) (v_omega vm) (v_energy vm 0%nat 0%nat) (fun n => v_linear vm n 0%nat 0%nat) ((beta + db) / INR P) x).
  { unfold ring. rewrite Prod_rprod. apply rprod_pos. intros p _. apply propagator_pos; auto. apply Rdiv_lt_0_compat; auto. apply lt_0_INR; auto. }
  assert (HPI : INR P <> 0) by (apply not_0_INR; lia).
  subst gp gp'. split.
  - split.
    + intros E. apply Rmult_eq_reg_r in E; [|lra]. apply exp_inv in E.
      assert (db * s = 0). { apply (f_equal (fun z => z * INR P)) in E. replace (- (beta / INR P) * s * INR P) with (- beta * s) in E by (field; auto).
        replace (- ((beta + db) / INR P) * s * INR P) with (- (beta + db) * s) in E by (field; auto). lra. }
      apply Rmult_integral in H. destruct H; [contradiction|auto].
    + intros ->. f_equal. apply (f_equal exp). lra.
  - rewrite <- Rmult_assoc, <- exp_plus. f_equal. apply (f_equal exp). field. auto.
Qed.
Print Assumptions C30_one_surface.
(** Without coupling at the sampled points the numerators are the intended ones. *)
Theorem C30_without_coupling P vm tau t x y :
  (forall p b c, (p < P)%nat -> (b < v_states vm)%nat -> (c < v_states vm)%nat -> V_of vm (x p) b c = 0) ->
  g_of P vm tau t x y <-> g_of P vm t t x y.
Proof. intros H. unfold g_of. rewrite !is_g_uncoupled by auto. tauto. Qed.
Print Assumptions C30_without_coupling.
(** The claim of C30 is false: a run of one sample whose stored g+ / rho is not
    the g+ / rho of the shifted temperature. *)
Definition vm_q : vib_model :=
  {| v_states := 1; v_modes := 1; v_omega := fun _ => 1; v_energy := fun a b => 0; v_linear := fun _ a b => 0;
     v_quadratic := fun _ _ _ _ => 1; v_delta_weight := fun _ => 0; v_state_shift := fun _ _ => 0 |}.
Definition rm_q : rho_model :=
  {| r_states := 1; r_modes := 1; r_omega := fun _ => 1; r_energy := Some (fun a => 0); r_linear := fun _ a => 0;
     r_delta_weight := fun _ => 0; r_state_weight := fun _ => 0; r_state_shift := fun _ _ => 0 |}.
Definition eigh_one (V : nat -> nat -> R) : (nat -> R) * (nat -> nat -> R) := (fun _ => V 0%nat 0%nat, one).
Lemma eigh_one_right V0 : eigh_right eigh_one 1 V0.
Proof.
  intros V _. unfold eigenbasis, eigh_one. split; [|split]; intros i j Hi Hj; replace i with 0%nat by lia; replace j with 0%nat by lia; unfold Sum, one; simpl; lra.
Qed.
(** C30: for one surface there are both values, whatever the beads are; the coupling of vm_q is not 0 at 1 and is 0 at 0 *)
Example C30_example : (exists gp gp', g_of 3 vm_q (1 / INR 3) ((1 + 1 / 10) / INR 3) (fun _ _ => 1) gp /\ g_of 3 vm_q ((1 + 1 / 10) / INR 3) ((1 + 1 / 10) / INR 3) (fun _ _ => 1) gp') /\
  Sum 3 (fun p => V_of vm_q ((fun _ _ => 1) p) 0 0) <> 0 /\ (forall n, (n < v_modes vm_q)%nat -> 0 < v_omega vm_q n) /\
  (forall p b c, (p < 3)%nat -> (b < v_states vm_q)%nat -> (c < v_states vm_q)%nat -> V_of vm_q ((fun _ _ => 0) p) b c = 0).
Proof.
  unfold g_of. cbn [v_states vm_q]. split; [|split; [|split]].
  - destruct (is_g_one_ex 3 (v_modes vm_q) (v_omega vm_q) (v_energy vm_q) (v_linear vm_q) (v_quadratic vm_q) (1 / INR 3) ((1 + 1 / 10) / INR 3) (fun _ _ => 1)) as [gp H].
    destruct (is_g_one_ex 3 (v_modes vm_q) (v_omega vm_q) (v_energy vm_q) (v_linear vm_q) (v_quadratic vm_q) ((1 + 1 / 10) / INR 3) ((1 + 1 / 10) / INR 3) (fun _ _ => 1)) as [gp' H'].
    exists gp, gp'. auto.
  - unfold V_of, coupling, Sum. simpl. lra.
  - intros. simpl. lra.
  - intros p b c _ _ _. unfold V_of, coupling, Sum. simpl. destruct (b =? c)%nat; lra.
Qed.
Theorem C30_plus_refuted : exists u dr r g gp gm,
  valid_models vm_q rm_q (fun _ => 0) /\ prepare_pm 3 1 (1 / 10) vm_q rm_q = Ok u
  /\ draws_ok eigh_one 3 vm_q rm_q (fun _ _ => 1) [dr]
  /\ blocks_pm eigh_one u (fun _ _ => 1) [dr] (new_box 3 1 vm_q rm_q) omats0 = Ok [(r, g, gp, gm)]
  /\ let x := draw_path 3 rm_q (fun _ _ => 1) dr in
     forall gp', g_of 3 vm_q ((1 + 1 / 10) / INR 3) ((1 + 1 / 10) / INR 3) x gp' ->
       gp / r <> gp' / rho_of 1 3 1 (fun _ => 1) (fun _ => 0) (fun _ _ => 0) (1 / INR 3) x.
Proof.
  assert (Hv : valid_models vm_q rm_q (fun _ => 0)).
  { unfold valid_models. cbn. repeat split; try lia; intros; try lra; auto. }
  set (dr := ((fun _ _ => 1) : nat -> nat -> R, 0%nat)).
  assert (Hd : draws_ok eigh_one 3 vm_q rm_q (fun _ _ => 1) [dr]).
  { constructor; [|constructor]. split; [simpl; lia|]. intros; apply eigh_one_right. }
  assert (Hu : prepare_pm 3 1 (1 / 10) vm_q rm_q = Ok (u_pm 3 1 (1 / 10) vm_q rm_q)) by (apply prepare_pm_ok; lia).
  destruct (C23_block_compute_pm_values eigh_one 3 1 (1 / 10) vm_q rm_q (fun _ => 0) (fun _ _ => 1) [dr] _ ltac:(lia) ltac:(lra) ltac:(lra) ltac:(lra) Hv ltac:(simpl; lia) Hd Hu) as (ys & E & HF).
  destruct ys as [|[[[r g] gp] gm] ys]; inversion HF as [|? ? ? ? H1 H2]; subst. inversion H2; subst.
  exists (u_pm 3 1 (1 / 10) vm_q rm_q), dr, r, g, gp, gm.
  split; [exact Hv|]. split; [exact Hu|]. split; [exact Hd|]. split; [exact E|].
  intros x gp' Hgp'. destruct H1 as (c & g0 & gp0 & gm0 & Hc & -> & G1 & -> & P1 & -> & M1 & ->).
  set (rho := rho_of (v_states vm_q) 3 _ _ _ _ _ _) in *. fold x in P1.
  change (rho_of 1 3 1 (fun _ => 1) (fun _ => 0) (fun _ _ => 0) (1 / INR 3) x) with rho.
  assert (Hrho : 0 < rho). { apply rho_of_pos; simpl; try lia; intros; lra. }
  replace (c * gp0 / (c * rho)) with (gp0 / rho) by (field; lra). intros Heq.
  assert (gp0 = gp') as E'. { apply (f_equal (fun z => z * rho)) in Heq. replace (gp0 / rho * rho) with gp0 in Heq by (field; lra). replace (gp' / rho * rho) with gp' in Heq by (field; lra). auto. }
  assert (Hx : forall p n, x p n = 3). { intros p n. unfold x, draw_path, path, minimum, Sum, dr. simpl. field. }
  destruct (C30_one_surface 3 vm_q 1 (1 / 10) x gp0 gp') as [[H _] _]; auto; try lra; try lia; [intros; simpl; lra|].
  apply H in E'. unfold V_of, coupling, Sum in E'. simpl in E'. rewrite !Hx in E'. lra.
Qed.
Print Assumptions C30_plus_refuted.

(** ** C60: the distribution that is sampled is rho(R) *)
(** rho(R) is a constant times the mixture density with the model's weights and
    widths, in the collective coordinates relative to each surface. *)
Theorem C60_mixture_density P beta rm er lam U :
  (3 <= P)%nat -> (0 < r_states rm)%nat -> 0 < beta -> r_energy rm = Some er ->
  (forall n, (n < r_modes rm)%nat -> 0 < r_omega rm n) -> eigenbasis P (ring_matrix P) (lam, U) ->
  let tau := beta / INR P in
  let (m, c) := rho_precompute beta tau rm in
  exists K, 0 < K /\ forall x,
    rho_of (r_states rm) P (r_modes rm) (r_omega rm) er (r_linear rm) tau x
    = K * Sum (r_states rm) (fun a => r_state_weight m a *
        Prod (r_modes rm) (fun n => Prod P (fun k =>
          normal_density (standard_deviation c lam a n k) (Sum P (fun p => U p k * (x p n - r_state_shift m a n)))))).
Proof.
  intros HP HA Hb He Hw HU tau. pose proof (mixK_pos P beta rm er lam U HP HA Hb Hw HU) as HK.
  pose proof (mixture P beta rm er lam U HP HA Hb He Hw HU) as Hmix. pose proof (model_sd_icov P beta rm lam HP HA Hb Hw) as Hsd.
  change (beta / INR P) with tau in Hmix, Hsd. destruct (rho_precompute beta tau rm) as [m c] eqn:E. cbn [fst snd] in *.
  exists (mixK P beta rm er lam). split; auto. intros x. rewrite Hmix. f_equal. rewrite Sum_rsum. apply rsum_ext. intros a Ha. f_equal.
  unfold dens. rewrite Prod_rprod. apply rprod_ext. intros n Hn. rewrite Prod_rprod. apply rprod_ext. intros k Hk. rewrite Hsd by auto. f_equal.
  unfold coll. rewrite Sum_rsum. apply rsum_ext. intros p Hp. f_equal. f_equal.
  assert (m = fst (rho_precompute beta tau rm)) as -> by (rewrite E; reflexivity). unfold rho_precompute. cbn [fst]. proj.
  rewrite (proj2 (Nat.ltb_lt _ _) Ha). unfold minimum, Rdiv. lra.
Qed.
Print Assumptions C60_mixture_density.
(** A sample drawn from surface [a] has exactly the drawn numbers as collective
    coordinates relative to that surface. *)
Theorem C60_draw_coordinates P U lam cc d n k : eigenbasis P (ring_matrix P) (lam, U) -> (k < P)%nat ->
  Sum P (fun p => U p k * (path P U cc d p n - d n)) = cc n k.
Proof.
  intros [_ [_ HC]] Hk. rewrite Sum_rsum. unfold path.
  rewrite (rsum_ext P _ (fun p => rsum P (fun j => cc n j * (U p k * U p j)))).
  2:{ intros p Hp. rewrite Sum_rsum.
      match goal with |- _ * (?a + ?b - ?b) = _ => replace (a + b - b) with a by lra end.
      rewrite <- rsum_scal. apply rsum_ext. intros; lra. }
  rewrite rsum_swap, (rsum_single P k); auto.
  - rewrite rsum_scal. rewrite <- (Sum_rsum P (fun p => U p k * U p k)), HC by auto. unfold one. rewrite Nat.eqb_refl. lra.
  - intros j Hj Hne. rewrite rsum_scal. rewrite <- (Sum_rsum P (fun p => U p k * U p j)), HC by auto. unfold one.
    destruct (Nat.eqb_spec k j); [congruence|lra].
Qed.
Print Assumptions C60_draw_coordinates.
(** the model's transformation produces that path, on every surface *)
Theorem C60_transform_is_path eigh P beta db vm rm er u U cc s w :
  (3 <= P)%nat -> valid_models vm rm er -> (s < r_states rm)%nat -> prepare_pm P beta db vm rm = Ok u -> reachable eigh u (new_box P beta vm rm) w ->
  let d := transform_sampled_coordinates U cc (r_state_shift (u_rho u) s) (new_box P beta vm rm) in
  forall n p, (forall a, b_q d a n p = draw_path P rm U (cc, s) p n)
    /\ (forall a, (a < r_states rm)%nat -> b_qtemp d a n p = draw_path P rm U (cc, s) p n).
Proof.
  intros HP _ Hs Hu _ d n p. rewrite prepare_pm_ok in Hu by auto. injection Hu as <-.
  assert (Hp : forall n p, rsum P (fun b => U p b * cc n b) + r_state_shift (u_rho (u_pm P beta db vm rm)) s n = draw_path P rm U (cc, s) p n).
  { intros n0 p0. unfold draw_path, path. rewrite Sum_rsum. cbn [fst snd]. f_equal. unfold u_pm. proj. rewrite (proj2 (Nat.ltb_lt _ _) Hs). unfold minimum, Rdiv. lra. }
  unfold d, transform_sampled_coordinates, with_q, new_box. cbn [b_q b_qtemp b_beads b_rho_states]. split.
  - intros a. apply Hp.
  - intros a Ha. rewrite (proj2 (Nat.ltb_lt _ _) Ha). apply Hp.
Qed.
Print Assumptions C60_transform_is_path.
(** an eigenbasis of the ring of three beads *)
Definition lam3 (k : nat) : R := if (k =? 0)%nat then 2 else - 1.
Definition U3 (p k : nat) : R :=
  match k with
  | 0%nat => / sqrt 3
  | 1%nat => match p with 0%nat => / sqrt 2 | 1%nat => - / sqrt 2 | _ => 0 end
  | _ => match p with 2%nat => - 2 * / sqrt 6 | _ => / sqrt 6 end
  end.
Example C60_example : eigenbasis 3 (ring_matrix 3) (lam3, U3) /\ (0 < r_states rm_ex)%nat /\ r_energy rm_ex = Some (fun a => INR a).
Proof.
  split; [|simpl; auto].
  assert (H2 : / sqrt 2 * / sqrt 2 = / 2) by (rewrite <- Rinv_mult, sqrt_sqrt; lra).
  assert (H3 : / sqrt 3 * / sqrt 3 = / 3) by (rewrite <- Rinv_mult, sqrt_sqrt; lra).
  assert (H6 : / sqrt 6 * / sqrt 6 = / 6) by (rewrite <- Rinv_mult, sqrt_sqrt; lra).
  assert (Hx : / sqrt 2 * / sqrt 3 = / sqrt 6). { rewrite <- Rinv_mult, <- sqrt_mult by lra. replace (2 * 3) with 6 by lra. reflexivity. }
  unfold eigenbasis, U3, lam3. set (a := / sqrt 2) in *. set (b := / sqrt 3) in *. set (c := / sqrt 6) in *.
  assert (three : forall i, (i < 3)%nat -> i = 0%nat \/ i = 1%nat \/ i = 2%nat) by (intros; lia).
  split; [|split]; intros i j Hi Hj; destruct (three i Hi) as [-> |[-> | ->]]; destruct (three j Hj) as [-> |[-> | ->]];
    unfold Sum, one, ring_matrix, next; simpl; lra.
Qed.

(** ** C61: numbers of surfaces *)
(** Fewer sampling surfaces than vibronic surfaces: the first block fails. *)
Theorem C61_fewer_sampling_surfaces_fail eigh P beta db vm rm u U draws :
  prepare_pm P beta db vm rm = Ok u -> (r_states rm < v_states vm)%nat -> draws <> [] ->
  blocks_pm eigh u U draws (new_box P beta vm rm) omats0 = Raise IndexError.
Proof. apply blocks_too_few. Qed.
Print Assumptions C61_fewer_sampling_surfaces_fail.
(** More sampling surfaces than vibronic surfaces: the run succeeds silently, the
    surplus surfaces are sampled from (C60) but missing from the stored rho,
    which is strictly smaller than the rho(R) that was sampled. *)
Theorem C61_more_sampling_surfaces_truncated eigh P beta db vm rm er U draws u :
  (3 <= P)%nat -> 0 < beta -> 0 < beta + db -> 0 < beta - db ->
  valid_models vm rm er -> (v_states vm < r_states rm)%nat -> draws_ok eigh P vm rm U draws ->
  prepare_pm P beta db vm rm = Ok u ->
  exists ys, blocks_pm eigh u U draws (new_box P beta vm rm) omats0 = Ok ys
    /\ Forall2 (fun dr y => let '(r, g, _, _) := y in let x := draw_path P rm U dr in let tau := beta / INR P in
         exists g0, g_of P vm tau tau x g0 /\ 0 < r
           /\ Rabs (g0 / rho_of (r_states rm) P (v_modes vm) (r_omega rm) er (r_linear rm) tau x) <= Rabs (g / r)
           /\ (g <> 0 -> g / r <> g0 / rho_of (r_states rm) P (v_modes vm) (r_omega rm) er (r_linear rm) tau x)) draws ys.
Proof.
  intros HP Hb Hp Hm Hv HAr Hd Hu.
  destruct (C23_block_compute_pm_values eigh P beta db vm rm er U draws u) as (ys & E & HF); auto; [lia|].
  exists ys. split; auto. destruct Hv as (HA & HN & He & Hw & Hr & Hs).
  revert HF. apply Forall2_weaken. intros dr [[[r g] gp] gm] (c & g0 & gp0 & gm0 & Hc & -> & G1 & -> & _). cbv zeta.
  assert (Ht : 0 < beta / INR P) by (apply Rdiv_lt_0_compat; auto; apply lt_0_INR; lia).
  set (x := draw_path P rm U dr) in *.
  set (lo := rho_of (v_states vm) P (v_modes vm) (r_omega rm) er (r_linear rm) (beta / INR P) x).
  set (hi := rho_of (r_states rm) P (v_modes vm) (r_omega rm) er (r_linear rm) (beta / INR P) x).
  assert (Hlo : 0 < lo) by (apply rho_of_pos; auto). assert (Hlt : lo < hi) by (apply rho_of_less; auto).
  exists g0. split; auto. split; [apply Rmult_lt_0_compat; auto|].
  replace (c * g0 / (c * lo)) with (g0 / lo) by (field; lra). split.
  - unfold Rdiv. rewrite !Rabs_mult. apply Rmult_le_compat_l; [apply Rabs_pos|].
    rewrite (Rabs_pos_eq (/ lo)), (Rabs_pos_eq (/ hi)) by (apply Rlt_le, Rinv_0_lt_compat; lra). apply Rinv_le_contravar; lra.
  - intros Hg Heq. apply Hg. assert (g0 * (hi - lo) = 0).
    { apply (f_equal (fun z => z * (lo * hi))) in Heq. replace (g0 / lo * (lo * hi)) with (g0 * hi) in Heq by (field; lra).
      replace (g0 / hi * (lo * hi)) with (g0 * lo) in Heq by (field; lra). lra. }
    apply Rmult_integral in H. destruct H as [H|H]; [rewrite H; ring|lra].
Qed.
Print Assumptions C61_more_sampling_surfaces_truncated.
Example C61_example : exists u, prepare_pm 3 1 (1 / 10) vm_q rm_ex = Ok u /\ valid_models vm_q rm_ex (fun a => INR a) /\ (v_states vm_q < r_states rm_ex)%nat
  /\ draws_ok eigh_one 3 vm_q rm_ex (fun _ _ => 1) [(fun _ _ => 1, 1%nat)].
Proof.
  eexists. split; [reflexivity|]. split; [unfold valid_models; cbn; repeat split; try lia; intros; try lra; auto|]. split; [simpl; lia|].
  constructor; [|constructor]. split; [simpl; lia|]. intros; apply eigh_one_right.
Qed.

(** ** C62: training data *)
(** When all surfaces have the same displacement [d0], the g stored for the
    coordinates x is g(x - d0). *)
Theorem C62_training_g_is_displaced eigh P beta vm rm u x d0 y :
  (3 <= P)%nat -> (0 < v_states vm)%nat -> 0 < beta -> (forall n, (n < v_modes vm)%nat -> 0 < v_omega vm n) ->
  prepare P beta vm rm = Ok u ->
  (forall a n, (a < v_states vm)%nat -> (n < v_modes vm)%nat -> minimum (v_omega vm) (fun n => v_linear vm n a a) n = d0 n) ->
  (forall p, (p < P)%nat -> eigh_right eigh (v_states vm) (V_of vm (fun n => x n p - d0 n))) ->
  raw_g eigh u x (new_box P beta vm rm) omats0 = Ok y ->
  g_of P vm (beta / INR P) (beta / INR P) (fun p n => x n p - d0 n) y.
Proof.
  intros HP HA Hb Hw Hu Hd He Hy. apply (raw_g_value eigh P beta vm rm HP HA Hb Hw u x d0 omats0 y Hu); auto.
  - apply zero_clean.
  - intros p V Hp HV. apply (He p Hp V HV).
Qed.
Print Assumptions C62_training_g_is_displaced.
(** So it is g(x) for models without diagonal linear terms ... *)
Theorem C62_training_g_without_linear eigh P beta vm rm u x y :
  (3 <= P)%nat -> (0 < v_states vm)%nat -> 0 < beta -> (forall n, (n < v_modes vm)%nat -> 0 < v_omega vm n) ->
  prepare P beta vm rm = Ok u ->
  (forall a n, (a < v_states vm)%nat -> (n < v_modes vm)%nat -> v_linear vm n a a = 0) ->
  (forall p, (p < P)%nat -> eigh_right eigh (v_states vm) (V_of vm (fun n => x n p - 0))) ->
  raw_g eigh u x (new_box P beta vm rm) omats0 = Ok y ->
  g_of P vm (beta / INR P) (beta / INR P) (fun p n => x n p - 0) y.
Proof.
  intros HP HA Hb Hw Hu Hl He Hy. apply (C62_training_g_is_displaced eigh P beta vm rm u x (fun _ => 0) y); auto.
  intros a n Ha Hn. unfold minimum. rewrite Hl by auto. unfold Rdiv; lra.
Qed.
Print Assumptions C62_training_g_without_linear.
(** ... and wrong otherwise: for one surface with a linear term and no quadratic
    one, the value stored for the minimum is smaller than g there. *)
Theorem C62_training_g_refuted eigh P beta vm rm u d0 y y' :
  (3 <= P)%nat -> v_states vm = 1%nat -> 0 < beta -> (forall n, (n < v_modes vm)%nat -> 0 < v_omega vm n) ->
  prepare P beta vm rm = Ok u ->
  (forall n, (n < v_modes vm)%nat -> d0 n = minimum (v_omega vm) (fun n => v_linear vm n 0%nat 0%nat) n) ->
  (exists n, (n < v_modes vm)%nat /\ v_linear vm n 0%nat 0%nat <> 0) ->
  (forall n m, v_quadratic vm n m 0%nat 0%nat = 0) ->
  (forall V0, eigh_right eigh 1 V0) ->
  raw_g eigh u (fun n p => d0 n) (new_box P beta vm rm) omats0 = Ok y ->
  g_of P vm (beta / INR P) (beta / INR P) (fun p n => d0 n) y' -> y < y'.
Proof.
  intros HP HA Hb Hw Hu Hd0 [n0 [Hn0 Hne]] Hq He Hy Hy'.
  assert (Hz : forall x, coupling (v_modes vm) (v_energy vm) (v_linear vm) (v_quadratic vm) x 0 0 = 0).
  { intros x. unfold coupling. simpl. rewrite Sum_rsum, rsum_zero; [lra|]. intros n _. rewrite Sum_rsum. apply rsum_zero. intros m _. rewrite Hq. lra. }
  apply (C62_training_g_is_displaced eigh P beta vm rm u (fun n p => d0 n) d0 y) in Hy; auto; [|lia| |].
  - unfold g_of in *. rewrite HA in *. apply is_g_one in Hy, Hy'. rewrite rsum_zero in Hy, Hy' by (intros; apply Hz).
    rewrite Rmult_0_r, exp_0, Rmult_1_l in Hy, Hy'. subst y y'.
    apply ring_displaced; auto; [lia| |].
    + apply Rdiv_lt_0_compat; auto. apply lt_0_INR; lia.
    + exists n0. split; auto. rewrite Hd0 by auto. unfold minimum. pose proof (Hw n0 Hn0).
      apply Ropp_neq_0_compat. unfold Rdiv. apply Rmult_integral_contrapositive_currified; auto. apply Rinv_neq_0_compat; lra.
  - intros a n Ha Hn. replace a with 0%nat by lia. symmetry. auto.
  - intros p Hp. rewrite HA. apply He.
Qed.
Print Assumptions C62_training_g_refuted.
(** Two surfaces displaced differently: the coupling matrix is evaluated at two
    different points and the symmetry assertion fails. *)
Theorem C62_training_g_assertion : exists u, prepare 3 1 vm_ex rm_ex = Ok u /\
  forall eigh, raw_g eigh u (fun _ _ => 0) (new_box 3 1 vm_ex rm_ex) omats0 = Raise AssertionError.
Proof.
  eexists. split; [reflexivity|]. intros eigh. unfold raw_g. set (d := raw_coordinates _ _ _).
  match goal with |- context [build_o_matrix d ?c ?o ?ss ?sh] => destruct (build_o_ok d c o ss sh) as (om & E & _); [left; reflexivity|cbn; lia|apply zero_clean|] end.
  rewrite E. cbn [bind]. unfold diagonalize_coupling_matrix, check_coupling_symmetric.
  match goal with |- context [passert ?b] => assert (b = false) as -> end; [|reflexivity].
  apply not_true_is_false. intros H. rewrite all_below_true in H. specialize (H 0%nat ltac:(cbn; lia)).
  rewrite all_below_true in H. specialize (H 0%nat ltac:(cbn; lia)). rewrite all_below_true in H. specialize (H 1%nat ltac:(cbn; lia)).
  unfold close in H. destruct (Rle_dec _ _) as [Hle|]; [|discriminate]. clear H.
  unfold coupling_matrix in Hle. cbn in Hle.
  match type of Hle with Rabs (?a - ?b) <= ?c + ?e * Rabs ?f => replace a with (-3) in Hle by field; replace b with 3 in Hle by field end.
  replace (-3 - 3) with (-(6)) in Hle by lra. rewrite Rabs_Ropp, !Rabs_pos_eq in Hle by lra. lra.
Qed.
Print Assumptions C62_training_g_assertion.
(** For the samples that block_compute_gR draws itself the stored g is g(R), not scaled, also with fewer or more sampling surfaces. *)
Theorem C62_drawn_g eigh P beta vm rm er U dr u :
  (3 <= P)%nat -> 0 < beta -> valid_models vm rm er -> draws_ok eigh P vm rm U [dr] -> prepare P beta vm rm = Ok u ->
  exists y, block_gR eigh u U dr (new_box P beta vm rm) omats0 = Ok y /\ g_of P vm (beta / INR P) (beta / INR P) (draw_path P rm U dr) y.
Proof.
  intros HP Hb (HA & HN & He & Hw & Hr & Hs) Hd Hu. rewrite (prepare_ok P beta 0) in Hu by auto. injection Hu as <-.
  apply draws_ok_run in Hd. inversion Hd as [|? ? [Hlt Hat0] _]; subst. unfold block_gR. cbv zeta.
  pose proof (transform_at P beta 0 vm rm U dr (new_box P beta vm rm) eq_refl eq_refl eq_refl eq_refl eq_refl Hlt) as Hat.
  change (u_rho (u_plain P beta 0 vm rm)) with (u_rho (u_pm P beta 0 vm rm)).
  set (d1 := transform_sampled_coordinates U (fst dr) (r_state_shift (u_rho (u_pm P beta 0 vm rm)) (snd dr)) (new_box P beta vm rm)) in *.
  set (u := u_plain P beta 0 vm rm).

  destruct (build_o_ok d1 (u_cvib u) (o_vib omats0) (v_states (u_vib u)) (v_state_shift (u_vib u))) as (om & E & K & V).
  { left. reflexivity. }
  { apply le_n. }
  { apply zero_clean. }
  change (transform_sampled_coordinates U (fst dr) _ (new_box P beta vm rm)) with d1. cbn [bind]. rewrite E. cbn [bind]. unfold diagonalize_coupling_matrix. rewrite (check_ok P beta 0 vm rm Hs u d1 _ eq_refl Hat). cbn [bind].
  eexists. split; [reflexivity|].
  rewrite (numerator_value (v_states vm) (v_states vm) P d1 _ om (v_of u (u_cvib u) d1)); auto.
  2:{ intros p a Hp Ha. rewrite V by exact Ha. change (v_states (u_vib u)) with (b_states d1). rewrite own_q. reflexivity. }
  exists (ms eigh u d1). split.
  - intros p Hp. eapply (ms_value P beta 0 vm rm); eauto.
  - rewrite gval_trace. apply gval_ext; [|].
    + intros p Hp. apply meq_refl.
    + intros p a Hp Ha. apply (v_of_value P beta 0 vm rm Hw u d1 _); auto. apply Rdiv_lt_0_compat; auto. apply lt_0_INR; lia.
Qed.
Print Assumptions C62_drawn_g.
Example C62_drawn_example U : exists u y, prepare 3 1 vm_ex rm_ex = Ok u /\ block_gR eigh_ex u U (fun _ _ => 1, 1%nat) (new_box 3 1 vm_ex rm_ex) omats0 = Ok y.
Proof.
  assert (Hu : exists u, prepare 3 1 vm_ex rm_ex = Ok u) by (rewrite (prepare_ok 3 1 0) by (auto; lia); eexists; reflexivity).
  destruct Hu as [u Hu]. destruct (C62_drawn_g eigh_ex 3 1 vm_ex rm_ex (fun a => INR a) U (fun _ _ => 1, 1%nat) u) as (y & Hy & _); auto; try lra.
  - exact vm_ex_valid.
  - apply draws_ex_ok. cbn. lia.
  - exists u, y. auto.
Qed.
(** If the sampling model has more surfaces, the rho stored for training
    coordinates does not depend on the coordinates at all. *)
Theorem C62_training_rho_constant P beta vm rm u x x' w : (3 <= P)%nat -> (0 < v_states vm)%nat -> prepare P beta vm rm = Ok u -> (v_states vm < r_states rm)%nat ->
  raw_rho u x (new_box P beta vm rm) w = raw_rho u x' (new_box P beta vm rm) w.
Proof. intros. apply raw_rho_const; auto. Qed.
Print Assumptions C62_training_rho_constant.
Definition vm_l : vib_model :=
  {| v_states := 1; v_modes := 1; v_omega := fun _ => 1; v_energy := fun a b => 0; v_linear := fun _ a b => 2;
     v_quadratic := fun _ _ _ _ => 0; v_delta_weight := fun _ => 0; v_state_shift := fun _ _ => 0 |}.
Example C62_example : exists u y, prepare 3 1 vm_l rm_q = Ok u /\ (forall V0, eigh_right eigh_one 1 V0)
  /\ (forall n, (n < 1)%nat -> -2 = minimum (fun _ => 1) (fun n => 2) n)
  /\ raw_g eigh_one u (fun n p => -2) (new_box 3 1 vm_l rm_q) omats0 = Ok y.
Proof.
  eexists. unfold raw_g.
  match goal with |- context [build_o_matrix ?d ?c ?o ?ss ?sh] => idtac | |- _ => idtac end.
  assert (Hat : exists y, raw_g eigh_one (u_plain 3 1 0 vm_l rm_q) (fun n p => -2) (new_box 3 1 vm_l rm_q) omats0 = Ok y).
  { unfold raw_g. set (d := raw_coordinates _ _ _).
    match goal with |- context [build_o_matrix d ?c ?o ?ss ?sh] => destruct (build_o_ok d c o ss sh) as (om & E & _); [left; reflexivity|cbn; lia|apply zero_clean|] end.
    rewrite E. cbn [bind]. unfold diagonalize_coupling_matrix, check_coupling_symmetric.
    match goal with |- context [passert ?b] => assert (b = true) as -> end; [|cbn [bind passert]; eauto].
    apply all_below_true. intros p _. apply all_below_true. intros b Hb. apply all_below_true. intros c Hc.
    cbn in Hb, Hc. replace b with 0%nat by lia. replace c with 0%nat by lia. unfold close. destruct (Rle_dec _ _) as [|n]; [reflexivity|]. exfalso; apply n.
    rewrite Rminus_diag_eq, Rabs_R0 by reflexivity. match goal with |- 0 <= _ + _ * Rabs ?z => pose proof (Rabs_pos z) end. lra. }
  destruct Hat as [y Hy]. exists y. split; [apply (prepare_ok 3 1 0); lia|]. split; [apply eigh_one_right|]. split; [|exact Hy].
  intros n _. unfold minimum. field.
Qed.

(** ** C63: choice of eigenvectors *)
Theorem C63_eigenvectors_do_not_matter d eig eig' om V :
  (forall p, (p < b_beads d)%nat -> eigenbasis (b_states d) (V p) (eig p) /\ eigenbasis (b_states d) (V p) (eig' p)) ->
  build_numerator d eig om = build_numerator d eig' om.
Proof. apply build_numerator_indep. Qed.
Print Assumptions C63_eigenvectors_do_not_matter.
(** the matrix built from any eigenbasis is the exponential of -tau V *)
Theorem C63_m_matrix_is_exponential A tau V lq : eigenbasis A V lq -> is_mexp A (fun i j => - tau * V i j) (m_matrix A tau lq).
Proof. apply m_matrix_mexp. Qed.
Print Assumptions C63_m_matrix_is_exponential.
Example C63_example : eigenbasis 2 (fun i j => if (i =? j)%nat then 0 else 3)
   (eigh_ex (fun i j => if (i =? j)%nat then 0 else 3)).
Proof.
  apply (eigh_ex_right (fun _ => 1)). intros i j Hi Hj. unfold V_of, coupling, Sum. cbn.
  destruct (two_cases i Hi) as [-> | ->]; destruct (two_cases j Hj) as [-> | ->]; simpl; lra.
Qed.

(** ** C64: blocks do not influence each other *)
Theorem C64_blocks_independent eigh P beta db vm rm er u w q qt r :
  valid_models vm rm er -> (v_states vm <= r_states rm)%nat -> prepare_pm P beta db vm rm = Ok u ->
  reachable eigh u (new_box P beta vm rm) w ->
  evaluate_pm eigh u (with_q (new_box P beta vm rm) q qt) w = Ok r ->
  exists d1 w1, evaluate_pm eigh u (with_q (new_box P beta vm rm) q qt) omats0 = Ok (d1, w1, snd r).
Proof.
  intros (HA & HN & _) HAr Hu Hreach E.
  assert (HP : (3 <= P)%nat). { unfold prepare_pm, circulant_matrix in Hu. destruct (Nat.leb_spec 3 P); [auto|discriminate]. }
  rewrite prepare_pm_ok in Hu by auto. injection Hu as <-.
  assert (Hsh : shapes_ok (u_pm P beta db vm rm) (new_box P beta vm rm)).
  { unfold shapes_ok. cbn. repeat split; lia || reflexivity. }
  pose proof (reachable_clean _ _ _ _ Hsh Hreach) as Hc.
  destruct (evaluate_history eigh (u_pm P beta db vm rm) (with_q (new_box P beta vm rm) q qt) w omats0 r) as (w1 & E1); auto.
  - repeat split; apply zero_clean.
  - eauto.
Qed.
Print Assumptions C64_blocks_independent.
(** hence one run over a list of draws equals the runs over its parts put together *)
Theorem C64_runs_concatenate eigh P beta db vm rm er u U l1 l2 ys1 ys2 :
  valid_models vm rm er -> (v_states vm <= r_states rm)%nat -> prepare_pm P beta db vm rm = Ok u ->
  blocks_pm eigh u U l1 (new_box P beta vm rm) omats0 = Ok ys1 -> blocks_pm eigh u U l2 (new_box P beta vm rm) omats0 = Ok ys2 ->
  blocks_pm eigh u U (l1 ++ l2) (new_box P beta vm rm) omats0 = Ok (ys1 ++ ys2).
Proof.
  intros (HA & HN & _) HAr Hu.
  assert (HP : (3 <= P)%nat). { unfold prepare_pm, circulant_matrix in Hu. destruct (Nat.leb_spec 3 P); [auto|discriminate]. }
  rewrite prepare_pm_ok in Hu by auto. injection Hu as <-. apply blocks_app.
  - unfold shapes_ok. cbn. repeat split; lia || reflexivity.
  - repeat split; apply zero_clean.
Qed.
Print Assumptions C64_runs_concatenate.
Example C64_example : exists u ys, prepare_pm 3 1 (1 / 10) vm_ex rm_ex = Ok u /\ blocks_pm eigh_ex u (fun _ _ => 1) [(fun _ k => INR k, 1%nat)] (new_box 3 1 vm_ex rm_ex) omats0 = Ok ys /\ length ys = 1%nat.
Proof. exact C23_example. Qed.
