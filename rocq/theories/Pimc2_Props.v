(** Further theorems on the numerical core: C23, C24, C27, C62. *)
From Coq Require Import Reals Lra.
From Verif Require Import Common Common_Proofs Pimc_Model Pimc_Spec Pimc_Proofs Pimc2_Proofs.
Local Open Scope R_scope.

(** C27: an O matrix that is not diagonal is rejected *)
Theorem C27_off_diagonal_rejected d c om shift p a b : (b_states d <= t_states c)%nat -> (a < t_states c)%nat -> (b < t_states c)%nat -> (p < b_beads d)%nat ->
  a <> b -> om p a b <> 0 -> build_o_matrix d c om (b_states d) shift = Raise AssertionError.
Proof.
  intros S A B P N Z. unfold build_o_matrix. rewrite Nat.eqb_refl. cbn [negb andb].
  destruct (Nat.ltb_spec (t_states c) (b_states d)) as [L|_]; [lia|].
  match goal with |- context [passert ?x] => assert (E : x = false) end.
  { apply Bool.not_true_is_false. intros K. unfold all_below in K. rewrite forallb_forall in K. specialize (K a ltac:(apply in_seq; lia)).
    rewrite forallb_forall in K. specialize (K b ltac:(apply in_seq; lia)). destruct (Nat.eqb_spec a b); [auto|]. cbn [orb andb] in K.
    rewrite forallb_forall in K. specialize (K p ltac:(apply in_seq; lia)). unfold is_zero in K. destruct (Req_EM_T (om p a b) 0); [auto|discriminate]. }
  rewrite E. reflexivity.
Qed.
Example C27_off_diagonal_example : exists d c om, (b_states d <= t_states c)%nat /\ om 0%nat 0%nat 1%nat <> 0 /\ build_o_matrix d c om (b_states d) (fun _ _ => 0) = Raise AssertionError.
Proof.
  exists {| b_states := 2; b_rho_states := 2; b_modes := 1; b_beads := 3; b_tau := 1; b_q := fun _ _ _ => 0; b_qtemp := fun _ _ _ => 0 |}.
  exists (temperature_dependent 2 1 (fun _ => 1) (fun _ => 0) (fun _ => 0) 1), (fun _ _ _ => 1). split; [cbn; lia|]. split; [lra|].
  apply (C27_off_diagonal_rejected _ _ _ _ 0%nat 0%nat 1%nat); cbn; try lia; lra.
Qed.

(** C62: the coupling matrices pass the check exactly if they are symmetric up to 1e-8 + 1e-5 |V| *)
Theorem C62_symmetry_check d m : check_coupling_symmetric d m = Ok tt <->
  forall p b c, (p < b_beads d)%nat -> (b < b_states d)%nat -> (c < b_states d)%nat ->
    Rabs (coupling_matrix d m p c b - coupling_matrix d m p b c) <= / (10 ^ 8) + / (10 ^ 5) * Rabs (coupling_matrix d m p b c).
Proof.
  unfold check_coupling_symmetric. split.
  - intros H p b c P B C. unfold passert in H. destruct (all_below (b_beads d) _) eqn:E; [|discriminate]. unfold all_below in E.
    rewrite forallb_forall in E. specialize (E p ltac:(apply in_seq; lia)). rewrite forallb_forall in E. specialize (E b ltac:(apply in_seq; lia)).
    rewrite forallb_forall in E. specialize (E c ltac:(apply in_seq; lia)). unfold close in E. destruct (Rle_dec _ _) as [L|]; [|discriminate].
    eapply Rle_trans; [exact L|]. apply Rplus_le_compat; [|apply Rmult_le_compat_r; [apply Rabs_pos|]]; right; f_equal; lra.
  - intros H. assert (E : forall x, x = true -> passert x = Ok tt) by (intros x ->; reflexivity). apply E. unfold all_below.
    apply forallb_forall. intros p P. apply forallb_forall. intros b B. apply forallb_forall. intros c C. apply in_seq in P, B, C.
    unfold close. destruct (Rle_dec _ _) as [_|N]; auto. exfalso. apply N. eapply Rle_trans; [apply H; lia|].
    apply Rplus_le_compat; [|apply Rmult_le_compat_r; [apply Rabs_pos|]]; right; f_equal; lra.
Qed.
Theorem C62_symmetry_check_raises d m : check_coupling_symmetric d m = Ok tt \/ check_coupling_symmetric d m = Raise AssertionError.
Proof. unfold check_coupling_symmetric, passert. destruct (all_below _ _); auto. Qed.
Example C62_check_example : exists d m, check_coupling_symmetric d m = Ok tt /\ coupling_matrix d m 0%nat 0%nat 1%nat = 3.
Proof.
  exists {| b_states := 2; b_rho_states := 2; b_modes := 0; b_beads := 3; b_tau := 1; b_q := fun _ _ _ => 0; b_qtemp := fun _ _ _ => 0 |}.
  exists {| v_states := 2; v_modes := 0; v_omega := fun _ => 1; v_energy := fun _ _ => 3; v_linear := fun _ _ _ => 0; v_quadratic := fun _ _ _ _ => 0;
            v_delta_weight := fun _ => 0; v_state_shift := fun _ _ => 0 |}.
  split; [|unfold coupling_matrix; cbn; lra]. apply C62_symmetry_check. intros p b c H H0 H1. unfold coupling_matrix. cbn. replace (0 + 0 + 3 - (0 + 0 + 3)) with 0 by lra. rewrite Rabs_R0.
  apply Rplus_le_le_0_compat; [|apply Rmult_le_pos; [|apply Rabs_pos]]; apply Rlt_le, Rinv_0_lt_compat; lra.
Qed.

(** C23: scaling can be undone unless a factor is zero *)
Theorem C23_unscale s om p a b : s p <> 0 -> un_scale_o_matrix s (scale_o_matrix s om) p a b = om p a b /\ scale_o_matrix s (un_scale_o_matrix s om) p a b = om p a b.
Proof. intros H. unfold un_scale_o_matrix, scale_o_matrix. split; field; auto. Qed.
Example C23_unscale_example : un_scale_o_matrix (fun _ => 4) (scale_o_matrix (fun _ => 4) (fun _ _ _ => 7)) 0%nat 0%nat 0%nat = 7.
Proof. apply (C23_unscale (fun _ => 4) (fun _ _ _ => 7)). lra. Qed.

(** C24: after folding the energies of a sampling model cannot be used again, unless there are no surfaces; the linear terms are gone *)
Theorem C24_energies_used_up beta tau m m' c : rho_precompute beta tau m = (m', c) ->
  ((0 < r_states m)%nat -> r_energy m' = None /\ forall n a, (a < r_states m)%nat -> r_linear m' n a = 0) /\
  (r_states m = 0%nat -> r_energy m' = r_energy m).
Proof.
  unfold rho_precompute, rho_finish_folding. intros H. inversion H; subst; clear H.
  cbn [r_energy r_linear r_states rho_weights rho_linear_displacement].
  split.
  - intros S. destruct (Nat.ltb_spec 0 (r_states m)); [|lia]. split; auto. intros n a A. destruct (Nat.ltb_spec a (r_states m)); [auto|lia].
  - intros ->. reflexivity.
Qed.
Example C24_used_up_example : exists m', fst (rho_precompute 1 1 {| r_states := 1; r_modes := 1; r_omega := fun _ => 1; r_energy := Some (fun _ => 3); r_linear := fun _ _ => 2;
    r_delta_weight := fun _ => 0; r_state_weight := fun _ => 0; r_state_shift := fun _ _ => 0 |}) = m' /\ r_energy m' = None.
Proof. eexists. split; reflexivity. Qed.

(** C60: a new box holds the sizes of the models, tau = beta / beads and zero coordinates *)
Theorem C60_new_box beads beta vm rm a n p : let d := new_box beads beta vm rm in
  b_q d a n p = 0 /\ b_qtemp d a n p = 0 /\ b_states d = v_states vm /\ b_rho_states d = r_states rm /\ b_modes d = v_modes vm /\
  b_beads d = beads /\ (beads <> 0%nat -> b_tau d * INR beads = beta).
Proof. cbn. repeat split. intros H. field. apply not_0_INR. auto. Qed.

Print Assumptions C27_off_diagonal_rejected.
Print Assumptions C62_symmetry_check.
Print Assumptions C62_symmetry_check_raises.
Print Assumptions C23_unscale.
Print Assumptions C24_energies_used_up.
Print Assumptions C60_new_box.
