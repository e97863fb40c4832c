(** Proofs about Train_Model *)
From Coq Require Import QArith.
From Verif Require Import Common Common_Proofs PyStr_Model FileName_Model FileStruct_Model Train_Model.
Local Open Scope nat_scope.

Lemma nth_firstn {A} (l : list A) : forall n i, nth_error (firstn n l) i = if i <? n then nth_error l i else None.
Proof. induction l as [|x l IH]; intros [|n] [|i]; try reflexivity; [cbn; match goal with |- context [if ?a then _ else _] => destruct a; reflexivity end|cbn [firstn nth_error]; rewrite IH; reflexivity]. Qed.
Lemma nth_skipn {A} (l : list A) : forall n i, nth_error (skipn n l) i = nth_error l (n + i).
Proof. induction l as [|x l IH]; intros [|n] i; cbn; try reflexivity; [destruct i; reflexivity|apply IH]. Qed.
Lemma slice_nth {A} (l : list A) a b i : nth_error (slice l a b) i = if i <? b - a then nth_error l (a + i) else None.
Proof. unfold slice. rewrite nth_firstn, nth_skipn. reflexivity. Qed.
Lemma slice_length {A} (l : list A) a b : length (slice l a b) = Nat.min (b - a) (length l - a).
Proof. unfold slice. rewrite firstn_length, skipn_length. reflexivity. Qed.
Lemma assign_ok {A} (t : list A) a b src : a <= b -> b <= length t -> length src = b - a ->
  exists t', assign t a b src = Ok t' /\ length t' = length t /\ forall i, nth_error t' i = if (a <=? i) && (i <? b) then nth_error src (i - a) else nth_error t i.
Proof.
  intros L1 L2 L3. unfold assign. rewrite !Nat.min_l by lia. rewrite L3, Nat.eqb_refl. eexists. split; [reflexivity|]. split; [rewrite !app_length, firstn_length, skipn_length; lia|].
  intros i. replace (a + (b - a)) with b by lia. destruct (Nat.leb_spec a i) as [Q1|Q1]; cbn [andb].
  - rewrite nth_error_app2 by (rewrite firstn_length; lia). rewrite firstn_length, Nat.min_l by lia. destruct (Nat.ltb_spec i b) as [Q2|Q2].
    + rewrite nth_error_app1 by lia. reflexivity.
    + rewrite nth_error_app2 by lia. rewrite nth_skipn. f_equal. lia.
  - rewrite nth_error_app1 by (rewrite firstn_length; lia). rewrite nth_firstn. apply Nat.ltb_lt in Q1. rewrite Q1. reflexivity.
Qed.
(** a block that does not fit *)
Lemma assign_short {A} (t : list A) a n src : a <= length t -> length t < a + n -> length src = n -> n <> 1 -> assign t a (a + n) src = Raise ValueError.
Proof.
  intros L1 L2 L3 N. unfold assign. rewrite (Nat.min_r (a + n)), Nat.min_l by lia. destruct (Nat.eqb_spec (length src) (length t - a)) as [E|E]; [lia|].
  destruct src as [|x [|]]; cbn in L3; try reflexivity. lia.
Qed.
Lemma assign_keeps {A} (t : list A) a b src t' : assign t a b src = Ok t' -> a <= length t -> length t' = length t.
Proof.
  unfold assign. intros E L. destruct (Nat.eqb_spec (length src) (Nat.min b (length t) - Nat.min a (length t))) as [Q|Q].
  - injection E as <-. rewrite !app_length, firstn_length, skipn_length. lia.
  - destruct src as [|x [|]]; try discriminate. injection E as <-. rewrite !app_length, firstn_length, skipn_length, repeat_length. lia.
Qed.

Section Loops.
  Context {Smp Draw Sh Val : Type}.
  (** the place of a sample: its block and its number in the block *)
  Definition at_ (size i : nat) : nat * nat := (i / size, i mod size).
  Lemma at_block size k i : k * size <= i < (k + 1) * size -> i / size = k /\ i mod size = i - k * size.
  Proof.
    intros B. assert (size <> 0) by (intros ->; lia). assert (E : i / size = k) by (symmetry; apply (Nat.div_unique i size k (i - k * size)); lia). split; [exact E|].
    symmetry. apply (Nat.mod_unique i size k (i - k * size)); lia.
  Qed.

  Lemma raw_loop (g : Smp -> Val) draw X size g0 : length g0 = X -> forall blocks, blocks * size <= X ->
    exists R' g', for_res (raw_block g draw size) (seq 0 blocks) (repeat None X, g0) = Ok (R', g') /\ length R' = X /\ length g' = X /\
      (forall i, i < blocks * size -> nth_error R' i = Some (Some (draw (i / size) (i mod size))) /\ nth_error g' i = Some (Some (g (draw (i / size) (i mod size))))) /\
      (forall i, blocks * size <= i -> nth_error R' i = nth_error (repeat None X) i /\ nth_error g' i = nth_error g0 i).
  Proof.
    intros L0. induction blocks as [|k IH]; intros B.
    - exists (repeat None X), g0. split; [reflexivity|]. rewrite repeat_length. split; [reflexivity|]. split; [exact L0|]. split; [intros; lia|auto].
    - destruct IH as (R1 & g1 & E & LR & Lg & I1 & I2); [lia|]. rewrite seq_S, for_res_app, E. cbn [bind for_res]; rewrite ?Nat.add_0_l. unfold raw_block. cbn [fst snd].
      set (src := map (fun i => Some (draw k i)) (seq 0 size)). assert (Ls : length src = (k + 1) * size - k * size) by (unfold src; rewrite map_length, seq_length; lia).
      destruct (assign_ok R1 (k * size) ((k + 1) * size) src ltac:(lia) ltac:(lia) Ls) as (R2 & E2 & L2 & N2). rewrite E2. cbn [bind].
      assert (Lq : length (slice R2 (k * size) ((k + 1) * size)) = size) by (rewrite slice_length; lia).
      unfold spread. rewrite Lq, Nat.eqb_refl. cbn [bind].
      destruct (assign_ok g1 (k * size) ((k + 1) * size) (map (option_map g) (slice R2 (k * size) ((k + 1) * size))) ltac:(lia) ltac:(lia)) as (g2 & E3 & L3 & N3); [rewrite map_length; lia|].
      rewrite E3. cbn [bind]. exists R2, g2. split; [reflexivity|]. split; [lia|]. split; [lia|].
      assert (Nsrc : forall j, j < size -> nth_error src j = Some (Some (draw k j))).
      { intros j Lj. unfold src. rewrite nth_error_map. rewrite (nth_error_nth' _ 0) by (rewrite seq_length; exact Lj). rewrite seq_nth by exact Lj. reflexivity. }
      split.
      + intros i Li. rewrite N2, N3. destruct (Nat.leb_spec (k * size) i) as [Q|Q]; cbn [andb].
        * assert (Q2 : i <? (k + 1) * size = true) by (apply Nat.ltb_lt; lia). rewrite Q2. destruct (at_block size k i ltac:(lia)) as [-> ->]. rewrite Nsrc by lia. split; [reflexivity|].
          rewrite nth_error_map, slice_nth. assert (Q3 : i - k * size <? (k + 1) * size - k * size = true) by (apply Nat.ltb_lt; lia). rewrite Q3. replace (k * size + (i - k * size)) with i by lia.
          rewrite N2, Q2. rewrite (proj2 (Nat.leb_le (k * size) i) Q). cbn [andb]. rewrite Nsrc by lia. reflexivity.
        * apply I1. lia.
      + intros i Li. rewrite N2, N3. assert (Q : i <? (k + 1) * size = false) by (apply Nat.ltb_ge; lia). rewrite Q, andb_false_r. apply I2. lia.
  Qed.
  Lemma raw_loop_fails (g : Smp -> Val) draw X size g0 : length g0 = X -> forall blocks, X < blocks * size ->
    for_res (raw_block g draw size) (seq 0 blocks) (repeat None X, g0) = Raise ValueError.
  Proof.
    intros L0. induction blocks as [|k IH]; intros B; [lia|]. rewrite seq_S, for_res_app. destruct (Nat.lt_ge_cases X (k * size)) as [Q|Q]; [rewrite IH by exact Q; reflexivity|].
    destruct (raw_loop g draw X size g0 L0 k Q) as (R1 & g1 & E & LR & Lg & _). rewrite E. cbn [bind for_res]; rewrite ?Nat.add_0_l. unfold raw_block. cbn [fst snd].
    replace ((k + 1) * size) with (k * size + size) by lia. destruct (Nat.eq_dec size 1) as [->|N].
    - destruct (assign R1 _ _ _) as [R2|e] eqn:A; cbn [bind]; [|exfalso; revert A; unfold assign; cbn [map seq length]; match goal with |- context [if ?b then _ else _] => destruct b end; discriminate].
      apply assign_keeps in A; [|lia]. assert (L : length (slice R2 (k * 1) (k * 1 + 1)) = 0) by (rewrite slice_length; lia). destruct (slice R2 _ _); [reflexivity|discriminate].
    - rewrite assign_short; [reflexivity|lia|lia|rewrite map_length, seq_length; reflexivity|exact N].
  Qed.

  Lemma rho_loop (rho : Smp -> Val) X size input out0 : length input = X -> length out0 = X -> forall blocks, blocks * size <= X ->
    exists out, for_res (rho_block rho input size) (seq 0 blocks) out0 = Ok out /\ length out = X /\
      (forall i, i < blocks * size -> nth_error out i = option_map (option_map rho) (nth_error input i)) /\
      (forall i, blocks * size <= i -> nth_error out i = nth_error out0 i).
  Proof.
    intros LI L0. induction blocks as [|k IH]; intros B.
    - exists out0. split; [reflexivity|]. split; [exact L0|]. split; [intros; lia|auto].
    - destruct IH as (o1 & E & Lo & I1 & I2); [lia|]. rewrite seq_S, for_res_app, E. cbn [bind for_res]; rewrite ?Nat.add_0_l. unfold rho_block.
      assert (Lq : length (slice input (k * size) ((k + 1) * size)) = size) by (rewrite slice_length; lia).
      unfold spread. rewrite Lq, Nat.eqb_refl. cbn [bind].
      destruct (assign_ok o1 (k * size) ((k + 1) * size) (map (option_map rho) (slice input (k * size) ((k + 1) * size))) ltac:(lia) ltac:(lia)) as (o2 & E3 & L3 & N3); [rewrite map_length; lia|].
      rewrite E3. exists o2. split; [reflexivity|]. split; [lia|]. split.
      + intros i Li. rewrite N3. destruct (Nat.leb_spec (k * size) i) as [Q|Q]; cbn [andb].
        * assert (Q2 : i <? (k + 1) * size = true) by (apply Nat.ltb_lt; lia). rewrite Q2, nth_error_map, slice_nth.
          assert (Q3 : i - k * size <? (k + 1) * size - k * size = true) by (apply Nat.ltb_lt; lia). rewrite Q3. replace (k * size + (i - k * size)) with i by lia. reflexivity.
        * apply I1. lia.
      + intros i Li. rewrite N3. assert (Q : i <? (k + 1) * size = false) by (apply Nat.ltb_ge; lia). rewrite Q, andb_false_r. apply I2. lia.
  Qed.
  Lemma rho_loop_fails (rho : Smp -> Val) X size input out0 : length input = X -> length out0 = X -> forall blocks, X < blocks * size ->
    for_res (rho_block rho input size) (seq 0 blocks) out0 = Raise ValueError.
  Proof.
    intros LI L0. induction blocks as [|k IH]; intros B; [lia|]. rewrite seq_S, for_res_app. destruct (Nat.lt_ge_cases X (k * size)) as [Q|Q]; [rewrite IH by exact Q; reflexivity|].
    destruct (rho_loop rho X size input out0 LI L0 k Q) as (o1 & E & Lo & _). rewrite E. cbn [bind for_res]; rewrite ?Nat.add_0_l. unfold rho_block.
    replace ((k + 1) * size) with (k * size + size) by lia. assert (L : length (slice input (k * size) (k * size + size)) = X - k * size) by (rewrite slice_length; lia).
    unfold spread. rewrite L. destruct (Nat.eqb_spec (X - k * size) size) as [Z|Z]; [lia|].
    destruct (slice input (k * size) (k * size + size)) as [|x [|]] eqn:S; try reflexivity. cbn [bind].
    rewrite assign_short; [reflexivity|lia|lia|rewrite map_length, repeat_length; reflexivity|cbn in L; lia].
  Qed.

  Lemma gR_loop (g : Draw * Sh -> Val) draw X size shifts out0 : length shifts = X -> length out0 = X -> forall blocks, blocks * size <= X ->
    exists out, for_res (gR_block g draw shifts size) (seq 0 blocks) out0 = Ok out /\ length out = X /\
      (forall i, i < blocks * size -> exists s, nth_error shifts i = Some s /\ nth_error out i = Some (Some (g (draw (i / size) (i mod size), s)))) /\
      (forall i, blocks * size <= i -> nth_error out i = nth_error out0 i).
  Proof.
    intros LI L0. induction blocks as [|k IH]; intros B.
    - exists out0. split; [reflexivity|]. split; [exact L0|]. split; [intros; lia|auto].
    - destruct IH as (o1 & E & Lo & I1 & I2); [lia|]. rewrite seq_S, for_res_app, E. cbn [bind for_res]; rewrite ?Nat.add_0_l. unfold gR_block.
      assert (Lq : length (slice shifts (k * size) ((k + 1) * size)) = size) by (rewrite slice_length; lia).
      unfold spread. rewrite Lq, Nat.eqb_refl. cbn [bind].
      destruct (assign_ok o1 (k * size) ((k + 1) * size) (map (fun x => Some (g x)) (combine (map (draw k) (seq 0 size)) (slice shifts (k * size) ((k + 1) * size)))) ltac:(lia) ltac:(lia)) as (o2 & E3 & L3 & N3); [rewrite map_length, combine_length, map_length, seq_length; lia|].
      rewrite E3. exists o2. split; [reflexivity|]. split; [lia|]. split.
      + intros i Li. rewrite N3. destruct (Nat.leb_spec (k * size) i) as [Q|Q]; cbn [andb].
        * assert (Q2 : i <? (k + 1) * size = true) by (apply Nat.ltb_lt; lia). rewrite Q2. destruct (at_block size k i ltac:(lia)) as [-> ->].
          destruct (nth_error shifts i) as [s|] eqn:Es; [|apply nth_error_None in Es; lia]. exists s. split; [reflexivity|]. rewrite nth_error_map.
          assert (C : forall (l : list Draw) (m : list Sh) j a b, nth_error l j = Some a -> nth_error m j = Some b -> nth_error (combine l m) j = Some (a, b)).
          { induction l as [|u l IHl]; intros [|v m] [|j] a b; cbn; try discriminate; [intros E4 E5; injection E4 as ->; injection E5 as ->; reflexivity|apply IHl]. }
          rewrite (C _ _ _ (draw k (i - k * size)) s); [reflexivity| |].
          -- rewrite nth_error_map. rewrite (nth_error_nth' _ 0) by (rewrite seq_length; lia). rewrite seq_nth by lia. reflexivity.
          -- rewrite slice_nth. assert (Q3 : i - k * size <? (k + 1) * size - k * size = true) by (apply Nat.ltb_lt; lia). rewrite Q3. replace (k * size + (i - k * size)) with i by lia. exact Es.
        * apply I1. lia.
      + intros i Li. rewrite N3. assert (Q : i <? (k + 1) * size = false) by (apply Nat.ltb_ge; lia). rewrite Q, andb_false_r. apply I2. lia.
  Qed.
  Lemma gR_loop_fails (g : Draw * Sh -> Val) draw X size shifts out0 : length shifts = X -> length out0 = X -> forall blocks, X < blocks * size ->
    for_res (gR_block g draw shifts size) (seq 0 blocks) out0 = Raise ValueError.
  Proof.
    intros LI L0. induction blocks as [|k IH]; intros B; [lia|]. rewrite seq_S, for_res_app. destruct (Nat.lt_ge_cases X (k * size)) as [Q|Q]; [rewrite IH by exact Q; reflexivity|].
    destruct (gR_loop g draw X size shifts out0 LI L0 k Q) as (o1 & E & Lo & _). rewrite E. cbn [bind for_res]; rewrite ?Nat.add_0_l. unfold gR_block.
    replace ((k + 1) * size) with (k * size + size) by lia. assert (L : length (slice shifts (k * size) (k * size + size)) = X - k * size) by (rewrite slice_length; lia).
    unfold spread. rewrite L. destruct (Nat.eqb_spec (X - k * size) size) as [Z|Z]; [lia|].
    destruct (slice shifts (k * size) (k * size + size)) as [|x [|]] eqn:S; try reflexivity. cbn [bind].
    rewrite assign_short; [reflexivity|lia|lia|rewrite map_length, combine_length, map_length, seq_length, repeat_length; lia|cbn in L; lia].
  Qed.
End Loops.
