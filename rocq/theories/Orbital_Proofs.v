From Coq Require Import QArith Lia Lqa.
From Verif Require Import Common Common_Proofs PyStr_Model PyStr_Proofs FileName_Model Json_Spec Orbital_Model Orbital_Spec Auto_Proofs.
Local Open Scope string_scope.
Local Open Scope nat_scope.

(** ** gaps *)
Lemma divide_quot a b : quot a b (divide a b).
Proof.
  unfold divide. destruct (Qeq_bool b 0) eqn:E.
  - apply Qeq_bool_iff in E. destruct (a ?= 0)%Q eqn:C; [apply Qeq_alt in C; apply q_nan|apply Qlt_alt in C; apply q_neg|apply Qgt_alt in C; apply q_pos]; assumption.
  - apply Qeq_bool_neq in E. apply q_fin; [exact E|]. field. exact E.
Qed.
Definition alike (a b : ratio) : Prop := match a, b with Fin x, Fin y => (x == y)%Q | PosInf, PosInf | NegInf, NegInf | NotANumber, NotANumber => True | _, _ => False end.
Lemma quot_divide a b r : quot a b r -> alike r (divide a b).
Proof.
  intros Q. pose proof (divide_quot a b) as D. remember (divide a b) as d eqn:E. clear E. inv Q; inv D; cbn; try tauto; try lra.
  apply (Qmult_inj_r _ _ b); [assumption|]. lra.
Qed.
Lemma ratios_nth ev i : nth_error (ratios ev) i = match nth_error ev i, nth_error ev (S i) with Some a, Some b => Some (divide a b) | _, _ => None end.
Proof.
  unfold ratios. revert i. induction ev as [|a ev IH]; intros i; [destruct i; reflexivity|]. destruct ev as [|b ev]; [destruct i as [|[|i]]; reflexivity|].
  destruct i as [|i]; [reflexivity|]. exact (IH i).
Qed.
Lemma gap_nth ev i r : gap ev i r <-> exists s, nth_error (ratios ev) i = Some s /\ alike r s /\ (forall a b, nth_error ev i = Some a -> nth_error ev (S i) = Some b -> quot a b r).
Proof.
  rewrite ratios_nth. split.
  - intros (a & b & -> & -> & Q). eexists. split; [reflexivity|]. split; [apply quot_divide; exact Q|]. intros ? ? [= <-] [= <-]. exact Q.
  - intros (s & E & A & Q). destruct (nth_error ev i) as [a|] eqn:E1; [|discriminate]. destruct (nth_error ev (S i)) as [b|] eqn:E2; [|discriminate]. exists a, b. auto.
Qed.
Lemma gap_ratio ev i s : nth_error (ratios ev) i = Some s -> gap ev i s.
Proof.
  rewrite ratios_nth. intros E. destruct (nth_error ev i) as [a|] eqn:E1; [|discriminate]. destruct (nth_error ev (S i)) as [b|] eqn:E2; [|discriminate]. injection E as <-. exists a, b. repeat split; auto. apply divide_quot.
Qed.
Lemma gap_alike ev i r : gap ev i r -> exists s, nth_error (ratios ev) i = Some s /\ alike r s.
Proof. intros G. apply gap_nth in G. destruct G as (s & A & B & _). eauto. Qed.
Lemma above_iff a b : above a b = true <-> larger a b.
Proof.
  split.
  - destruct a, b; cbn; try discriminate; intros E; try constructor. apply negb_true_iff in E. destruct (Qlt_le_dec q0 q) as [L|L]; [exact L|]. apply Qle_bool_iff in L. congruence.
  - intros L. inv L; cbn; try reflexivity. apply negb_true_iff. destruct (Qle_bool x y) eqn:E; [|reflexivity]. apply Qle_bool_iff in E. lra.
Qed.
Lemma larger_alike a b a' b' : alike a a' -> alike b b' -> larger a b -> larger a' b'.
Proof. intros A B L. inv L; destruct a', b'; cbn in A, B; try tauto; try constructor; lra. Qed.
Lemma alike_sym a b : alike a b -> alike b a.
Proof. destruct a, b; cbn; auto; intros; lra. Qed.
Lemma larger_trans a b c : larger a b -> larger b c -> larger a c.
Proof. intros A B. inv A; inv B; constructor; lra. Qed.
Lemma not_larger_trans a b c : b <> NotANumber -> ~ larger b a -> ~ larger c b -> ~ larger c a.
Proof.
  intros N A B L. destruct a, b, c; inv L; try congruence; try (apply B; constructor; fail); try (apply A; constructor; fail).
  destruct (Qlt_le_dec q q0) as [X|X]; [apply A; constructor; lra|]. apply B. constructor. lra.
Qed.
Lemma equal_iff a b : equal a b = true <-> a <> NotANumber /\ alike a b.
Proof. destruct a, b; cbn; rewrite ?Qeq_bool_iff; intuition (try congruence; auto). Qed.
Lemma alike_iff a b : a <> NotANumber -> b <> NotANumber -> (alike a b <-> ~ larger a b /\ ~ larger b a).
Proof.
  intros A B. split.
  - intros H. destruct a, b; cbn in H; try tauto; (split; intros L; inv L; lra).
  - intros [L1 L2]. destruct a, b; cbn; auto; try congruence; try (apply L1; constructor; fail); try (apply L2; constructor; fail).
    destruct (Q_dec q q0) as [[X|X]|X]; [exfalso; apply L2; constructor; exact X|exfalso; apply L1; constructor; exact X|exact X].
Qed.
Lemma larger_nan a b : larger a b -> a <> NotANumber /\ b <> NotANumber.
Proof. intros L. inv L; split; discriminate. Qed.

(** ** the maximum *)
Lemma max_spec l x : x <> NotANumber -> let m := fold_left (fun m y => if above y m then y else m) l x in
  m <> NotANumber /\ In m (x :: l) /\ forall y, In y (x :: l) -> ~ larger y m.
Proof.
  revert x. induction l as [|y l IH]; intros x N; cbn [fold_left].
  - split; [exact N|]. split; [left; reflexivity|]. intros z [<-|[]] L. inv L; lra.
  - destruct (above y x) eqn:A.
    + apply above_iff in A. destruct (IH y (proj1 (larger_nan _ _ A))) as (M1 & M2 & M3). split; [exact M1|]. split; [destruct M2 as [M2|M2]; [right; left; exact M2|right; right; exact M2]|].
      intros z [<-|[<-|Z]]; [|apply M3; left; reflexivity|apply M3; right; exact Z]. intros L. apply (M3 y (or_introl eq_refl)). eapply larger_trans; eassumption.
    + destruct (IH x N) as (M1 & M2 & M3). split; [exact M1|]. split; [destruct M2 as [M2|M2]; [left; exact M2|right; right; exact M2]|].
      intros z [<-|[<-|Z]]; [apply M3; left; reflexivity| |apply M3; right; exact Z]. apply not_larger_trans with x; [exact N|apply M3; left; reflexivity|]. intros L. apply above_iff in L. congruence.
Qed.
Lemma max_nan l : fold_left (fun m y => if above y m then y else m) l NotANumber = NotANumber.
Proof. induction l as [|y l IH]; [reflexivity|]. cbn. destruct y; exact IH. Qed.
Lemma index_spec eq l x i : index_by eq l x = Ok i <-> (exists y, nth_error l i = Some y /\ eq y x = true) /\ forall k y, k < i -> nth_error l k = Some y -> eq y x = false.
Proof.
  revert i. induction l as [|z l IH]; intros i; cbn [index_by].
  - split; [discriminate|]. intros [(y & E & _) _]. destruct i; discriminate.
  - destruct (eq z x) eqn:E.
    + split.
      * intros [= <-]. split; [exists z; auto|]. intros k y L. lia.
      * intros [(y & Y1 & Y2) F]. destruct i as [|i]; [reflexivity|]. specialize (F 0 z ltac:(lia) eq_refl). congruence.
    + split.
      * destruct (index_by eq l x) as [n|e] eqn:I; cbn [bind]; [|discriminate]. intros [= <-]. destruct (proj1 (IH n) eq_refl) as [(y & Y1 & Y2) F]. split; [exists y; auto|]. intros [|k] w L W; [injection W as <-; exact E|]. apply (F k w); [lia|exact W].
      * intros [(y & Y1 & Y2) F]. destruct i as [|i]; [cbn in Y1; injection Y1 as <-; congruence|]. rewrite (proj2 (IH i)); [reflexivity|]. split; [exists y; auto|]. intros k w L W. apply (F (S k) w); [lia|exact W].
Qed.
Lemma index_some eq l x : (exists y, In y l /\ eq y x = true) -> exists i, index_by eq l x = Ok i.
Proof.
  intros (y & I & E). induction l as [|z l IH]; [destruct I|]. cbn [index_by]. destruct (eq z x) eqn:Z; [eauto|]. destruct I as [->|I]; [congruence|]. destruct (IH I) as [i ->]. cbn. eauto.
Qed.
Lemma index_none eq l x : (forall y, In y l -> eq y x = false) -> index_by eq l x = Raise ValueError.
Proof. induction l as [|z l IH]; intros H; [reflexivity|]. cbn [index_by]. rewrite (H z (or_introl eq_refl)). rewrite IH; [reflexivity|]. intros y I. apply H. right. exact I. Qed.
Lemma ratios_skip ev k : ratios (skipn k ev) = skipn k (ratios ev).
Proof.
  revert ev. induction k as [|k IH]; intros ev; [reflexivity|]. destruct ev as [|a ev]; [reflexivity|]. cbn [skipn]. rewrite IH. destruct ev as [|b ev]; [destruct k; reflexivity|]. reflexivity.
Qed.
Lemma ratios_length ev : length (ratios ev) = length ev - 1.
Proof. unfold ratios. rewrite map_length, combine_length. destruct ev; cbn [length tl]; lia. Qed.

(** the largest gap from [lo] on, and the first one like it *)
Lemma max_from ev lo : lo + 2 <= length ev -> ~ gap ev lo NotANumber -> exists m, py_max (ratios (skipn lo ev)) = Ok m /\ widest ev lo m.
Proof.
  intros L N. rewrite ratios_skip. destruct (skipn lo (ratios ev)) as [|x l] eqn:E.
  - exfalso. apply (f_equal (@length _)) in E. rewrite skipn_length, ratios_length in E. cbn in E. lia.
  - cbn [py_max]. assert (NT : forall i, nth_error (x :: l) i = nth_error (ratios ev) (lo + i)). { intros i. rewrite <- E. clear. generalize (ratios ev). intros d. revert d. induction lo as [|lo IH]; intros [|y d]; cbn; auto. destruct i; reflexivity. }
    assert (X : x <> NotANumber). { intros ->. apply N. apply gap_ratio. specialize (NT 0). rewrite Nat.add_0_r in NT. symmetry. exact NT. }
    destruct (max_spec l x X) as (M1 & M2 & M3). eexists. split; [reflexivity|]. split; [exact M1|]. split.
    + apply In_nth_error in M2. destruct M2 as [i M2]. rewrite NT in M2. exists (lo + i). split; [lia|]. apply gap_ratio. exact M2.
    + intros i s I G Lg. apply gap_alike in G. destruct G as (s' & G & A). apply (M3 s').
      * replace i with (lo + (i - lo)) in G by lia. rewrite <- NT in G. eapply nth_error_In. exact G.
      * eapply larger_alike; [exact A| |exact Lg]. destruct (fold_left _ l x); cbn; auto; lra.
Qed.
Lemma first_gap_index (eq : ratio -> ratio -> bool) ev r i : r <> NotANumber -> (forall y, eq y r = equal y r) -> (index_by eq (ratios ev) r = Ok i <-> first_gap ev r i).
Proof.
  intros R EQ. rewrite index_spec. split.
  - intros [(y & Y1 & Y2) F]. rewrite EQ in Y2. apply equal_iff in Y2. destruct Y2 as [Y2 Y3]. split.
    + exists y. split; [apply gap_ratio; exact Y1|]. split; [exact Y2|]. apply alike_iff; assumption.
    + intros k s L G. apply gap_alike in G. destruct G as (s' & G & A). specialize (F k s' L G). rewrite EQ in F. destruct s as [q| | |]; [|..|left; reflexivity]; right.
      * destruct s' as [q'| | |]; cbn in A; try tauto. destruct r as [p| | |]; try congruence; cbn in F; [|right; constructor|left; constructor]. destruct (Q_dec q p) as [[X|X]|X]; [right; constructor; exact X|left; constructor; exact X|]. exfalso. rewrite <- A in F. apply Qeq_bool_iff in X. assert (Y : Qeq_bool q' p = true) by (apply Qeq_bool_iff; apply Qeq_bool_iff in X; lra). cbn in *. congruence.
      * destruct s'; cbn in A; try tauto. destruct r; try congruence; cbn in F; try discriminate; left; constructor.
      * destruct s'; cbn in A; try tauto. destruct r; try congruence; cbn in F; try discriminate; right; constructor.
  - intros [(s & G & N & L1 & L2) F]. pose proof (gap_alike _ _ _ G) as (s' & G' & A). split.
    + exists s'. split; [exact G'|]. rewrite EQ. apply equal_iff. assert (N' : s' <> NotANumber) by (intros ->; destruct s; cbn in A; tauto). split; [exact N'|]. apply alike_iff; [exact N'|exact R|]. 
      split; intros L; [apply L1|apply L2]; (eapply larger_alike; [| |exact L]); try (apply alike_sym; exact A); try (destruct r; cbn; auto; lra).
    + intros k y L Y. rewrite EQ. destruct (equal y r) eqn:Q; [|reflexivity]. exfalso. apply equal_iff in Q. destruct Q as [Q1 Q2]. destruct (F k y L (gap_ratio _ _ _ Y)) as [X|[X|X]]; [congruence|..]; apply (alike_iff _ _ Q1 R) in Q2; tauto.
Qed.
Lemma same_equal r : r <> NotANumber -> forall y, same_or_equal y r = equal y r.
Proof. intros N y. destruct y, r; try congruence; reflexivity. Qed.
