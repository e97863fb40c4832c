(** numpy's rule for comparing arrays of different shapes: the shapes are aligned at the last
    axis; axes of length one are repeated. *)
From Verif Require Import Common Common_Proofs Arr_Model Arr_Proofs ModelIO_Model SameModel_Model.
Local Open Scope nat_scope.

(** axes counted from the last one have the same length or one of them has length one *)
Definition compatible (s t : list nat) : Prop :=
  forall k x y, nth_error (rev s) k = Some x -> nth_error (rev t) k = Some y -> x = y \/ x = 1 \/ y = 1.
(** two positions that are compared with each other *)
Definition aligned (s t i j : list nat) : Prop :=
  forall k x y p q, nth_error (rev s) k = Some x -> nth_error (rev t) k = Some y -> x <> 1 -> y <> 1 ->
    nth_error (rev i) k = Some p -> nth_error (rev j) k = Some q -> p = q.

Lemma nth_rev {A} (l : list A) k : nth_error (rev l) k = if k <? length l then nth_error l (length l - 1 - k) else None.
Proof.
  destruct (Nat.ltb_spec k (length l)) as [H|H].
  - revert k H. induction l as [|x l IH]; intros k H; [cbn in H; lia|]. cbn [rev length] in *.
    destruct (Nat.eq_dec k (length l)) as [->|E].
    + rewrite nth_error_app2 by (rewrite rev_length; lia). rewrite rev_length, Nat.sub_diag. replace (S (length l) - 1 - length l) with 0 by lia. reflexivity.
    + rewrite nth_error_app1 by (rewrite rev_length; lia). rewrite IH by lia. replace (S (length l) - 1 - k) with (S (length l - 1 - k)) by lia. reflexivity.
  - apply nth_error_None. rewrite rev_length. auto.
Qed.

Lemma bzip_spec s : forall t, length s = length t ->
  (bzip s t <> None <-> (forall k x y, nth_error s k = Some x -> nth_error t k = Some y -> x = y \/ x = 1 \/ y = 1)) /\
  (forall r, bzip s t = Some r -> length r = length s /\
     (forall idx, inb r idx -> inb s (bc_index s idx) /\ inb t (bc_index t idx) /\
        (forall k x y p q, nth_error s k = Some x -> nth_error t k = Some y -> x <> 1 -> y <> 1 ->
          nth_error (bc_index s idx) k = Some p -> nth_error (bc_index t idx) k = Some q -> p = q)) /\
     (forall i j, inb s i -> inb t j ->
        (forall k x y p q, nth_error s k = Some x -> nth_error t k = Some y -> x <> 1 -> y <> 1 ->
           nth_error i k = Some p -> nth_error j k = Some q -> p = q) ->
        exists idx, inb r idx /\ bc_index s idx = i /\ bc_index t idx = j)).
Proof.
  induction s as [|x s IH]; intros [|y t] L; try discriminate.
  - split; [split; [intros _ [|] ? ? K; discriminate K|discriminate]|]. cbn. intros r [= <-]. split; [reflexivity|]. split.
    + intros idx H. inv H. repeat split; try constructor. intros [|] ? ? ? ? K; discriminate K.
    + intros i j Hi Hj _. inv Hi. inv Hj. exists []. repeat split; constructor.
  - injection L as L. destruct (IH t L) as [I1 I2]. cbn [bzip].
    destruct ((x =? y) || (x =? 1) || (y =? 1)) eqn:E.
    + assert (E' : x = y \/ x = 1 \/ y = 1).
      { apply orb_true_iff in E. destruct E as [E|E]; [apply orb_true_iff in E; destruct E as [E|E]|]; apply Nat.eqb_eq in E; auto. }
      split.
      * split.
        -- intros H [|k] a b; cbn; [intros [= <-] [= <-]; auto|]. apply I1. destruct (bzip s t); [discriminate|congruence].
        -- intros H. destruct (bzip s t); [discriminate|]. exfalso. apply (proj2 I1); [|reflexivity]. intros k a b. apply (H (S k)).
      * intros r. destruct (bzip s t) as [r'|] eqn:B; [|discriminate]. intros [= <-]. destruct (I2 r' eq_refl) as (J1 & J2 & J3).
        split; [cbn; lia|]. split.
        -- intros idx H. inversion H as [|p ? idx' ? Hp Hi]; subst. destruct (J2 idx' Hi) as (K1 & K2 & K3). cbn [bc_index]. split; [|split].
           ++ constructor; auto. destruct (Nat.eqb_spec x 1); lia.
           ++ constructor; auto. destruct (Nat.eqb_spec x 1), (Nat.eqb_spec y 1); lia.
           ++ intros [|k] a b c d; cbn [nth_error]; [|apply K3]. intros [= <-] [= <-] Na Nb [= <-] [= <-].
              destruct (Nat.eqb_spec x 1), (Nat.eqb_spec y 1); lia.
        -- intros i j Hi Hj Hij. inversion Hi as [|p ? i' ? Hp Hi']; subst. inversion Hj as [|q ? j' ? Hq Hj']; subst.
           destruct (J3 i' j' Hi' Hj') as (idx & X & Y1 & Y2). { intros k a b c d. apply (Hij (S k)). }
           pose proof (Hij 0 x y p q eq_refl eq_refl) as H0. cbn in H0.
           exists ((if x =? 1 then q else p) :: idx). cbn [bc_index]. rewrite Y1, Y2. split; [|split].
           ++ constructor; auto. destruct (Nat.eqb_spec x 1); lia.
           ++ f_equal. destruct (Nat.eqb_spec x 1); lia.
           ++ f_equal. destruct (Nat.eqb_spec x 1), (Nat.eqb_spec y 1); try lia. apply H0; auto.
    + split; [|discriminate]. split; [congruence|]. intros H. exfalso. pose proof (H 0 x y eq_refl eq_refl) as K.
      destruct (Nat.eqb_spec x y), (Nat.eqb_spec x 1), (Nat.eqb_spec y 1); try discriminate. intuition.
Qed.

Lemma pad_length n s : length s <= n -> length (pad n s) = n.
Proof. intros H. unfold pad. rewrite app_length, repeat_length. lia. Qed.
Lemma pad_back n s k : length s <= n -> k < n ->
  nth_error (pad n s) (n - 1 - k) = match nth_error (rev s) k with Some x => Some x | None => Some 1 end.
Proof.
  intros L H. rewrite nth_rev. unfold pad. destruct (Nat.ltb_spec k (length s)).
  - rewrite nth_error_app2 by (rewrite repeat_length; lia). rewrite repeat_length. replace (n - 1 - k - (n - length s)) with (length s - 1 - k) by lia.
    destruct (nth_error s _) eqn:E; auto. apply nth_error_None in E. lia.
  - rewrite nth_error_app1 by (rewrite repeat_length; lia). rewrite nth_error_repeat by lia. reflexivity.
Qed.
Lemma zeros_back n i k : length i <= n -> k < n ->
  nth_error (repeat 0 (n - length i) ++ i) (n - 1 - k) = match nth_error (rev i) k with Some x => Some x | None => Some 0 end.
Proof.
  intros L H. rewrite nth_rev. destruct (Nat.ltb_spec k (length i)).
  - rewrite nth_error_app2 by (rewrite repeat_length; lia). rewrite repeat_length. replace (n - 1 - k - (n - length i)) with (length i - 1 - k) by lia.
    destruct (nth_error i _) eqn:E; auto. apply nth_error_None in E. lia.
  - rewrite nth_error_app1 by (rewrite repeat_length; lia). rewrite nth_error_repeat by lia. reflexivity.
Qed.
Lemma bc_pad n s idx : length s <= n -> length idx = n ->
  bc_index (pad n s) idx = repeat 0 (n - length s) ++ bc_index s (skipn (n - length s) idx).
Proof.
  unfold pad. remember (n - length s) as m. revert n Heqm idx. induction m as [|m IH]; intros n E idx L H; [reflexivity|].
  destruct idx as [|p idx]; [cbn in *; lia|]. cbn [repeat app bc_index skipn Nat.eqb]. f_equal. apply (IH (n - 1)); cbn in *; lia.
Qed.
Lemma inb_pad m s i : inb (repeat 1 m ++ s) (repeat 0 m ++ i) <-> inb s i.
Proof.
  unfold inb. induction m as [|m IH]; cbn; [reflexivity|]. rewrite <- IH. split; [intros H; inv H; auto|]. intros. constructor; auto.
Qed.
Lemma inb_len s i : inb s i -> length i = length s.
Proof. unfold inb. induction 1; cbn; auto. Qed.

Lemma back_iff n (P Q : nat -> Prop) : (forall k, k < n -> (P (n - 1 - k) <-> Q k)) -> (forall k, n <= k -> P k) -> (forall k, n <= k -> Q k) ->
  ((forall k, P k) <-> (forall k, Q k)).
Proof.
  intros H A B. split; intros K k; destruct (Nat.lt_ge_cases k n) as [L|L]; auto.
  - apply H; auto.
  - replace k with (n - 1 - (n - 1 - k)) by lia. apply H; [lia|]. auto.
Qed.

Lemma compatible_pad n s t : length s <= n -> length t <= n ->
  (forall k x y, nth_error (pad n s) k = Some x -> nth_error (pad n t) k = Some y -> x = y \/ x = 1 \/ y = 1) <-> compatible s t.
Proof.
  intros Ls Lt. unfold compatible. apply (back_iff n (fun k => forall x y, nth_error (pad n s) k = Some x -> nth_error (pad n t) k = Some y -> x = y \/ x = 1 \/ y = 1)).
  - intros k Hk. rewrite !pad_back by auto. destruct (nth_error (rev s) k), (nth_error (rev t) k); split; intros H x y Hx Hy; try discriminate; auto;
      injection Hx as <-; injection Hy as <-; auto.
  - intros k Hk x y Hx. assert (k < length (pad n s)) by (apply nth_error_Some; congruence). rewrite pad_length in * by auto. lia.
  - intros k Hk x y Hx. assert (k < length (rev s)) by (apply nth_error_Some; congruence). rewrite rev_length in *. lia.
Qed.
Lemma aligned_pad n s t i j : length s <= n -> length t <= n -> length i = length s -> length j = length t ->
  (forall k x y p q, nth_error (pad n s) k = Some x -> nth_error (pad n t) k = Some y -> x <> 1 -> y <> 1 ->
     nth_error (repeat 0 (n - length s) ++ i) k = Some p -> nth_error (repeat 0 (n - length t) ++ j) k = Some q -> p = q) <-> aligned s t i j.
Proof.
  intros Ls Lt Li Lj. unfold aligned.
  apply (back_iff n (fun k => forall x y p q, nth_error (pad n s) k = Some x -> nth_error (pad n t) k = Some y -> x <> 1 -> y <> 1 ->
     nth_error (repeat 0 (n - length s) ++ i) k = Some p -> nth_error (repeat 0 (n - length t) ++ j) k = Some q -> p = q)).
  - intros k Hk. rewrite <- Li, <- Lj. rewrite !pad_back, !zeros_back by lia.
    destruct (nth_error (rev s) k) eqn:E1, (nth_error (rev t) k) eqn:E2; try (split; intros H x y p q Hx Hy; try discriminate; injection Hx as <-; injection Hy as <-; lia).
    + destruct (nth_error (rev i) k) eqn:E3; [destruct (nth_error (rev j) k) eqn:E4|].
      * split; intros H x y p q Hx Hy; apply H; auto.
      * exfalso. apply nth_error_None in E4. assert (k < length (rev t)) by (apply nth_error_Some; congruence). rewrite rev_length in *. lia.
      * exfalso. apply nth_error_None in E3. assert (k < length (rev s)) by (apply nth_error_Some; congruence). rewrite rev_length in *. lia.
  - intros k Hk x y p q Hx. assert (k < length (pad n s)) by (apply nth_error_Some; congruence). rewrite pad_length in * by auto. lia.
  - intros k Hk x y p q Hx. assert (k < length (rev s)) by (apply nth_error_Some; congruence). rewrite rev_length in *. lia.
Qed.

Definition bpos (s idx : list nat) : list nat := bc_index s (skipn (length idx - length s) idx).
Theorem bshape_spec s t :
  (bshape s t = None <-> ~ compatible s t) /\
  (forall r, bshape s t = Some r -> compatible s t /\
     (forall idx, inb r idx -> inb s (bpos s idx) /\ inb t (bpos t idx) /\ aligned s t (bpos s idx) (bpos t idx)) /\
     (forall i j, inb s i -> inb t j -> aligned s t i j -> exists idx, inb r idx /\ bpos s idx = i /\ bpos t idx = j)).
Proof.
  unfold bshape. set (n := Nat.max (length s) (length t)).
  assert (Ls : length s <= n) by (unfold n; lia). assert (Lt : length t <= n) by (unfold n; lia). clearbody n.
  destruct (bzip_spec (pad n s) (pad n t)) as [H1 H2]. { rewrite !pad_length; auto. }
  rewrite (compatible_pad n s t Ls Lt) in H1. split.
  - destruct (bzip (pad n s) (pad n t)); split; intros K; try discriminate; try reflexivity.
    + exfalso. apply K, H1. discriminate.
    + intros C. apply H1 in C. congruence.
  - intros r E. destruct (H2 r E) as (R & R1 & R2). rewrite pad_length in R by auto.
    assert (BP : forall idx, inb r idx -> bc_index (pad n s) idx = repeat 0 (n - length s) ++ bpos s idx /\ bc_index (pad n t) idx = repeat 0 (n - length t) ++ bpos t idx).
    { intros idx Hi. apply inb_len in Hi. unfold bpos. rewrite !bc_pad by lia. replace (length idx) with n by lia. auto. }
    split; [apply H1; congruence|]. split.
    + intros idx Hi. destruct (R1 idx Hi) as (K1 & K2 & K3). destruct (BP idx Hi) as [B1 B2]. rewrite B1 in K1. rewrite B2 in K2. unfold pad in K1, K2.
      apply inb_pad in K1. apply inb_pad in K2. split; [|split]; auto. rewrite B1, B2 in K3.
      apply (aligned_pad n) in K3; auto using inb_len.
    + intros i j Hi Hj A. destruct (R2 (repeat 0 (n - length s) ++ i) (repeat 0 (n - length t) ++ j)) as (idx & X & Y1 & Y2).
      * apply inb_pad; auto.
      * apply inb_pad; auto.
      * apply (aligned_pad n s t i j); auto using inb_len.
      * exists idx. destruct (BP idx X) as [B1 B2]. split; auto. rewrite B1 in Y1. rewrite B2 in Y2. split; eapply app_inv_head; eauto.
Qed.

(** the comparison of all pairs of aligned elements *)
Theorem compare_all {V} (close : V -> V -> bool) (a b : arr V) r : wf_arr a -> wf_arr b -> bshape (shape a) (shape b) = Some r ->
  (forallb (fun idx => match bget a idx, bget b idx with Some x, Some y => close x y | _, _ => false end) (indices r) = true <->
   forall i j x y, aget a i = Some x -> aget b j = Some y -> aligned (shape a) (shape b) i j -> close x y = true).
Proof.
  intros Wa Wb E. destruct (bshape_spec (shape a) (shape b)) as [_ S]. destruct (S r E) as (_ & S1 & S2). rewrite forallb_forall. split.
  - intros H i j x y Hx Hy A. destruct (S2 i j) as (idx & I & P1 & P2); eauto using aget_inb.
    specialize (H idx). rewrite indices_in in H. specialize (H I). unfold bget in H. fold (bpos (shape a) idx) in H. fold (bpos (shape b) idx) in H.
    rewrite P1, P2, Hx, Hy in H. exact H.
  - intros H idx I. apply indices_in in I. destruct (S1 idx I) as (A1 & A2 & A3). unfold bget. fold (bpos (shape a) idx). fold (bpos (shape b) idx).
    destruct (aget_some a _ Wa A1) as [x X]. destruct (aget_some b _ Wb A2) as [y Y]. rewrite X, Y. eapply H; eauto.
Qed.
