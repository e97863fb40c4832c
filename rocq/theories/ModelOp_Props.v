(** Property C51: the completion of the numbers listed in a .op file *)
From Coq Require Import QArith Qabs Qfield Lqa.
From Verif Require Import Common Common_Proofs ModelIO_Model ModelOp_Model ModelOp_Proofs.
Local Open Scope string_scope.
Local Open Scope nat_scope.
Local Open Scope list_scope.

(** ** Specification *)
(** the array a listing stands for: every pair of surfaces counted once *)
Definition wanted (x : nat -> nat -> Q) (a b : nat) : Q := if a =? b then x a a else (x a b + x b a)%Q.
(** what the code makes of a listing [x]; [y] has the lower triangle of the modes added *)
Definition got (A : nat) (y x : nat -> nat -> Q) (a b : nat) : Q :=
  ((if b =? A - 1 then 1 # 2 else 1) *
   (if a =? b then 2 * y a a else if a <? b then y a b + x b a else y a b + y b a + x a b))%Q.
Definition mirrored2 (t : coup) (i j : nat) (a b : nat) : Q := (t [i; j] a b + if i <? j then t [j; i] a b else 0)%Q.
Definition mirrored3 (t : coup) (i j k : nat) (a b : nat) : Q := (t [i; j; k] a b + if i <? j then t [k; j; i] a b else 0)%Q.
Definition mirrored4 (t : coup) (i j k l : nat) (a b : nat) : Q := (t [i; j; k; l] a b + if i <? j then t [l; k; j; i] a b else 0)%Q.
Definition got2 A (t : coup) i j := got A (mirrored2 t i j) (t [i; j]).
Definition got3 A (t : coup) i j k := got A (mirrored3 t i j k) (t [i; j; k]).
Definition got4 A (t : coup) i j k l := got A (mirrored4 t i j k l) (t [i; j; k; l]).
Definition near (x y : Q) : Prop := (Qabs (x - y) <= (1 # 100000000) + (1 # 100000) * Qabs y)%Q.

Lemma near_close x y : near x y <-> close x y = true.
Proof. unfold near, close. rewrite Qle_bool_iff. reflexivity. Qed.
Lemma higher2 A t i j a b : a < A -> b < A -> (complete_higher A t [i; j] a b == got2 A t i j a b)%Q.
Proof. intros Ha Hb. rewrite higher_value by auto. reflexivity. Qed.
Lemma higher3 A t i j k a b : a < A -> b < A -> (complete_higher A t [i; j; k] a b == got3 A t i j k a b)%Q.
Proof. intros Ha Hb. rewrite higher_value by auto. reflexivity. Qed.
Lemma higher4 A t i j k l a b : a < A -> b < A -> (complete_higher A t [i; j; k; l] a b == got4 A t i j k l a b)%Q.
Proof. intros Ha Hb. rewrite higher_value by auto. reflexivity. Qed.

(** ** Acceptance *)
(** the symmetries the code asserts, on what it makes of the listing *)
Definition symmetric_enough (N A : nat) (l : listing) : Prop :=
  (forall i j a b, i < N -> j < N -> a < A -> b < A ->
     near (got2 A (l_2 l) i j a b) (got2 A (l_2 l) i j b a) /\ near (got2 A (l_2 l) i j a b) (got2 A (l_2 l) j i a b)) /\
  (forall i j k a b, i < N -> j < N -> k < N -> a < A -> b < A ->
     near (got3 A (l_3 l) i j k a b) (got3 A (l_3 l) i j k b a) /\ near (got3 A (l_3 l) i j k a b) (got3 A (l_3 l) i k j a b)) /\
  (forall i j k h a b, i < N -> j < N -> k < N -> h < N -> a < A -> b < A ->
     near (got4 A (l_4 l) i j k h a b) (got4 A (l_4 l) i j k h b a) /\ near (got4 A (l_4 l) i j k h a b) (got4 A (l_4 l) i j h k a b)).
Lemma len1 {A} (m : list A) : length m = 1 -> exists i, m = [i].
Proof. destruct m as [|i [|]]; try discriminate. eauto. Qed.
Lemma len2 {A} (m : list A) : length m = 2 -> exists i j, m = [i; j].
Proof. destruct m as [|i [|j [|]]]; try discriminate. eauto. Qed.
Lemma len3 {A} (m : list A) : length m = 3 -> exists i j k, m = [i; j; k].
Proof. destruct m as [|i [|j [|k [|]]]]; try discriminate. eauto. Qed.
Lemma len4 {A} (m : list A) : length m = 4 -> exists i j k l, m = [i; j; k; l].
Proof. destruct m as [|i [|j [|k [|l [|]]]]]; try discriminate. eauto 6. Qed.
Ltac forall_inv := repeat match goal with H : Forall _ (_ :: _) |- _ => inversion_clear H end.
Lemma linear_surfaces N A t : surfaces_ok N A 1 (complete_linear A t) = true.
Proof.
  apply all_entries_spec. intros m a b _ _ Ha Hb. apply close_eq. rewrite !linear_value by auto. rewrite (Nat.eqb_sym b a).
  destruct (Nat.eqb_spec a b); [subst; reflexivity|ring].
Qed.
Lemma energies_ok A e : forallb (fun ab => close (energy_matrix e (fst ab) (snd ab)) (energy_matrix e (snd ab) (fst ab))) (pairs A) = true.
Proof.
  apply forallb_forall. intros [a b] _. cbn [fst snd]. apply close_eq. unfold energy_matrix. rewrite (Nat.eqb_sym b a).
  destruct (Nat.eqb_spec a b); [subst|]; reflexivity.
Qed.
Definition zero_free (l : listing) : list (vmk * opval) :=
  let N := length (l_w l) in let A := length (l_E l) in
  filter (fun kv => negb (all_zero N A (snd kv)))
    [(N_, OInt N); (A_, OInt A); (E_, OMat (energy_matrix (l_E l))); (w_, OVec (l_w l)); (G1_, OCoup 1 (complete_linear A (l_1 l)));
     (G2_, OCoup 2 (complete_higher A (l_2 l))); (G3_, OCoup 3 (complete_higher A (l_3 l))); (G4_, OCoup 4 (complete_higher A (l_4 l)))].
Lemma complete_cases l : let N := length (l_w l) in let A := length (l_E l) in
  (symmetric_enough N A l /\ complete l = Ok (zero_free l)) \/ (~ symmetric_enough N A l /\ complete l = Raise AssertionError).
Proof.
  cbv zeta. unfold complete, zero_free. rewrite energies_ok, linear_surfaces. cbn [passert bind].
  set (N := length (l_w l)). set (A := length (l_E l)).
  assert (C : (surfaces_ok N A 2 (complete_higher A (l_2 l)) && surfaces_ok N A 3 (complete_higher A (l_3 l)) && surfaces_ok N A 4 (complete_higher A (l_4 l)) &&
    modes_ok N A 2 (complete_higher A (l_2 l)) && modes_ok N A 3 (complete_higher A (l_3 l)) && modes_ok N A 4 (complete_higher A (l_4 l))) = true <-> symmetric_enough N A l).
  { unfold surfaces_ok, modes_ok. rewrite !andb_true_iff, !all_entries_spec. unfold symmetric_enough. split.
    - intros [[[[[S2 S3] S4] M2] M3] M4]. repeat split.
      + apply near_close. erewrite close_Qeq; [apply (S2 [i; j] a b); auto| |]; symmetry; apply higher2; auto.
      + apply near_close. erewrite close_Qeq; [apply (M2 [i; j] a b); auto| |]; symmetry; apply higher2; auto.
      + apply near_close. erewrite close_Qeq; [apply (S3 [i; j; k] a b); auto| |]; symmetry; apply higher3; auto.
      + apply near_close. erewrite close_Qeq; [apply (M3 [i; j; k] a b); auto| |]; symmetry; apply higher3; auto.
      + apply near_close. erewrite close_Qeq; [apply (S4 [i; j; k; h] a b); auto 6| |]; symmetry; apply higher4; auto.
      + apply near_close. erewrite close_Qeq; [apply (M4 [i; j; k; h] a b); auto 6| |]; symmetry; apply higher4; auto.
    - intros (H2 & H3 & H4). repeat split; intros m a b L F Ha Hb.
      + apply len2 in L. destruct L as (i & j & ->). forall_inv. erewrite close_Qeq; [apply near_close, (proj1 (H2 i j a b ltac:(auto) ltac:(auto) Ha Hb)); auto| |]; apply higher2; auto.
      + apply len3 in L. destruct L as (i & j & k & ->). forall_inv. erewrite close_Qeq; [apply near_close, (proj1 (H3 i j k a b ltac:(auto) ltac:(auto) ltac:(auto) Ha Hb)); auto| |]; apply higher3; auto.
      + apply len4 in L. destruct L as (i & j & k & h & ->). forall_inv. erewrite close_Qeq; [apply near_close, (proj1 (H4 i j k h a b ltac:(auto) ltac:(auto) ltac:(auto) ltac:(auto) Ha Hb)); auto| |]; apply higher4; auto.
      + apply len2 in L. destruct L as (i & j & ->). forall_inv. erewrite close_Qeq; [apply near_close, (proj2 (H2 i j a b ltac:(auto) ltac:(auto) Ha Hb)); auto| |]; apply higher2; auto.
      + apply len3 in L. destruct L as (i & j & k & ->). forall_inv. erewrite close_Qeq; [apply near_close, (proj2 (H3 i j k a b ltac:(auto) ltac:(auto) ltac:(auto) Ha Hb)); auto| |]; apply higher3; auto.
      + apply len4 in L. destruct L as (i & j & k & h & ->). forall_inv. erewrite close_Qeq; [apply near_close, (proj2 (H4 i j k h a b ltac:(auto) ltac:(auto) ltac:(auto) ltac:(auto) Ha Hb)); auto| |]; apply higher4; auto. }
  destruct (surfaces_ok N A 2 _); cbn [passert bind andb] in *; [|right; split; [rewrite <- C; discriminate|reflexivity]].
  destruct (surfaces_ok N A 3 _); cbn [passert bind andb] in *; [|right; split; [rewrite <- C; discriminate|reflexivity]].
  destruct (surfaces_ok N A 4 _); cbn [passert bind andb] in *; [|right; split; [rewrite <- C; discriminate|reflexivity]].
  destruct (modes_ok N A 2 _); cbn [passert bind andb] in *; [|right; split; [rewrite <- C; discriminate|reflexivity]].
  destruct (modes_ok N A 3 _); cbn [passert bind andb] in *; [|right; split; [rewrite <- C; discriminate|reflexivity]].
  destruct (modes_ok N A 4 _); cbn [passert bind andb] in *; [|right; split; [rewrite <- C; discriminate|reflexivity]].
  left. split; [apply C|]; reflexivity.
Qed.
(** C51: the import succeeds exactly if what is made of the higher orders is
    symmetric; otherwise an assertion fails *)
Theorem C51_accepts l :
  ((exists d, complete l = Ok d) <-> symmetric_enough (length (l_w l)) (length (l_E l)) l) /\
  (~ symmetric_enough (length (l_w l)) (length (l_E l)) l -> complete l = Raise AssertionError).
Proof.
  destruct (complete_cases l) as [[S E]|[S E]]; rewrite E.
  - split; [|tauto]. split; eauto.
  - split; auto. split; [intros [d X]; discriminate|tauto].
Qed.
Print Assumptions C51_accepts.

(** ** Values *)
Lemma in_zero_free l k v : In (k, v) (zero_free l) <->
  all_zero (length (l_w l)) (length (l_E l)) v = false /\
  In (k, v) [(N_, OInt (length (l_w l))); (A_, OInt (length (l_E l))); (E_, OMat (energy_matrix (l_E l))); (w_, OVec (l_w l));
     (G1_, OCoup 1 (complete_linear (length (l_E l)) (l_1 l))); (G2_, OCoup 2 (complete_higher (length (l_E l)) (l_2 l)));
     (G3_, OCoup 3 (complete_higher (length (l_E l)) (l_3 l))); (G4_, OCoup 4 (complete_higher (length (l_E l)) (l_4 l)))].
Proof. unfold zero_free. rewrite filter_In. cbn [snd]. rewrite negb_true_iff. tauto. Qed.
(** C51: the sizes, frequencies and energies are those of the file; zeros are left out *)
Theorem C51_values l d k v : complete l = Ok d -> In (k, v) d ->
  let N := length (l_w l) in let A := length (l_E l) in
  match k with
  | N_ => v = OInt N /\ N <> 0
  | A_ => v = OInt A /\ A <> 0
  | E_ => exists e, v = OMat e /\ forall a b, e a b = if a =? b then nth a (l_E l) 0%Q else 0%Q
  | w_ => v = OVec (l_w l)
  | G1_ => exists t, v = OCoup 1 t /\ forall j a b, a < A -> (t [j] a b == wanted (l_1 l [j]) a b)%Q
  | G2_ => exists t, v = OCoup 2 t /\ forall i j a b, a < A -> b < A -> (t [i; j] a b == got2 A (l_2 l) i j a b)%Q
  | G3_ => exists t, v = OCoup 3 t /\ forall i j k a b, a < A -> b < A -> (t [i; j; k] a b == got3 A (l_3 l) i j k a b)%Q
  | G4_ => exists t, v = OCoup 4 t /\ forall i j k h a b, a < A -> b < A -> (t [i; j; k; h] a b == got4 A (l_4 l) i j k h a b)%Q
  end.
Proof.
  intros E I. destruct (complete_cases l) as [[_ E']|[_ E']]; rewrite E' in E; [|discriminate].
  assert (d = zero_free l) by congruence. subst d. apply in_zero_free in I. destruct I as [Z I]. cbv zeta.
  cbn [In] in I. destruct I as [I|[I|[I|[I|[I|[I|[I|[I|[]]]]]]]]]; (assert (k = fst (k, v)) as -> by reflexivity); 
    (assert (v = snd (k, v)) by reflexivity); rewrite <- I in *; cbn [fst snd] in *; subst v.
  - split; auto. cbn [all_zero] in Z. apply Nat.eqb_neq in Z. auto.
  - split; auto. cbn [all_zero] in Z. apply Nat.eqb_neq in Z. auto.
  - eexists. split; [reflexivity|]. reflexivity.
  - reflexivity.
  - eexists. split; [reflexivity|]. intros. apply linear_value. auto.
  - eexists. split; [reflexivity|]. intros. apply higher2; auto.
  - eexists. split; [reflexivity|]. intros. apply higher3; auto.
  - eexists. split; [reflexivity|]. intros. apply higher4; auto.
Qed.
Print Assumptions C51_values.
(** C51: and exactly the entries that are not zero everywhere are there, once *)
Lemma forallb_false {A} (f : A -> bool) l : forallb f l = false <-> exists x, In x l /\ f x = false.
Proof.
  induction l as [|x l IH]; cbn [forallb].
  - split; [discriminate|]. intros (x & [] & _).
  - rewrite andb_false_iff, IH. split.
    + intros [H|(y & I & H)]; [exists x|exists y]; cbn; auto.
    + intros (y & [<-|I] & H); eauto.
Qed.
Lemma is_zero_false q : is_zero q = false <-> ~ (q == 0)%Q.
Proof. unfold is_zero. rewrite <- not_true_iff_false, Qeq_bool_iff. reflexivity. Qed.
Lemma nonzero_entry N A k t : all_zero N A (OCoup k t) = false <->
  exists m a b, length m = k /\ Forall (fun i => i < N) m /\ a < A /\ b < A /\ ~ (t m a b == 0)%Q.
Proof.
  cbn [all_zero]. unfold all_entries. rewrite forallb_false. split.
  - intros (m & I & H). apply forallb_false in H. destruct H as ([a b] & J & H). apply is_zero_false in H. apply in_pairs in J. apply in_tuples in I.
    exists m, a, b. tauto.
  - intros (m & a & b & L & F & Ha & Hb & H). exists m. split; [apply in_tuples; auto|]. apply forallb_false. exists (a, b).
    rewrite in_pairs, is_zero_false. auto.
Qed.
Theorem C51_present l d : complete l = Ok d ->
  let N := length (l_w l) in let A := length (l_E l) in
  NoDup (map fst d) /\
  (In N_ (map fst d) <-> N <> 0) /\ (In A_ (map fst d) <-> A <> 0) /\
  (In w_ (map fst d) <-> exists x, In x (l_w l) /\ ~ (x == 0)%Q) /\
  (In E_ (map fst d) <-> exists x, In x (l_E l) /\ ~ (x == 0)%Q) /\
  (In G1_ (map fst d) <-> exists j a b, j < N /\ a < A /\ b < A /\ ~ (wanted (l_1 l [j]) a b == 0)%Q) /\
  (In G2_ (map fst d) <-> exists i j a b, i < N /\ j < N /\ a < A /\ b < A /\ ~ (got2 A (l_2 l) i j a b == 0)%Q) /\
  (In G3_ (map fst d) <-> exists i j k a b, i < N /\ j < N /\ k < N /\ a < A /\ b < A /\ ~ (got3 A (l_3 l) i j k a b == 0)%Q) /\
  (In G4_ (map fst d) <-> exists i j k h a b, i < N /\ j < N /\ k < N /\ h < N /\ a < A /\ b < A /\ ~ (got4 A (l_4 l) i j k h a b == 0)%Q).
Proof.
  intros E. destruct (complete_cases l) as [[_ E']|[_ E']]; rewrite E' in E; [|discriminate].
  assert (d = zero_free l) by congruence. subst d. clear E E'. cbv zeta.
  assert (K : forall k, In k (map fst (zero_free l)) <-> exists v, In (k, v) (zero_free l)).
  { intros k. rewrite in_map_iff. split; [intros ([k' v] & E & I); cbn in E; subst; eauto|]. intros [v I]. exists (k, v). auto. }
  assert (U : forall k v, (forall v', In (k, v') [(N_, OInt (length (l_w l))); (A_, OInt (length (l_E l))); (E_, OMat (energy_matrix (l_E l))); (w_, OVec (l_w l));
     (G1_, OCoup 1 (complete_linear (length (l_E l)) (l_1 l))); (G2_, OCoup 2 (complete_higher (length (l_E l)) (l_2 l)));
     (G3_, OCoup 3 (complete_higher (length (l_E l)) (l_3 l))); (G4_, OCoup 4 (complete_higher (length (l_E l)) (l_4 l)))] <-> v' = v) ->
     (In k (map fst (zero_free l)) <-> all_zero (length (l_w l)) (length (l_E l)) v = false)).
  { intros k v H. rewrite K. split.
    - intros (v' & I). apply in_zero_free in I. destruct I as [Z I]. apply H in I. subst. auto.
    - intros Z. exists v. apply in_zero_free. rewrite H. auto. }
  split.
  { unfold zero_free. cbn [filter snd]. repeat (match goal with |- context[negb ?x] => destruct (negb x) end); cbn [map fst];
    repeat (constructor; [cbn [In]; intuition discriminate|]); constructor. }
  Ltac only_one := intros v'; cbn [In]; split; [intros H; repeat (destruct H as [H|H]; [try discriminate H; injection H; intros X; symmetry; exact X|]); destruct H|intros ->; tauto].
  repeat match goal with |- _ /\ _ => split end.
  all: match goal with
    | |- In N_ _ <-> _ => rewrite (U N_ (OInt (length (l_w l)))) by only_one
    | |- In A_ _ <-> _ => rewrite (U A_ (OInt (length (l_E l)))) by only_one
    | |- In E_ _ <-> _ => rewrite (U E_ (OMat (energy_matrix (l_E l)))) by only_one
    | |- In w_ _ <-> _ => rewrite (U w_ (OVec (l_w l))) by only_one
    | |- In G1_ _ <-> _ => rewrite (U G1_ (OCoup 1 (complete_linear (length (l_E l)) (l_1 l)))) by only_one
    | |- In G2_ _ <-> _ => rewrite (U G2_ (OCoup 2 (complete_higher (length (l_E l)) (l_2 l)))) by only_one
    | |- In G3_ _ <-> _ => rewrite (U G3_ (OCoup 3 (complete_higher (length (l_E l)) (l_3 l)))) by only_one
    | |- In G4_ _ <-> _ => rewrite (U G4_ (OCoup 4 (complete_higher (length (l_E l)) (l_4 l)))) by only_one
    end.
  - cbn [all_zero]. apply Nat.eqb_neq.
  - cbn [all_zero]. apply Nat.eqb_neq.
  - cbn [all_zero]. rewrite forallb_false. split; intros (x & I & H); exists x; split; auto; apply is_zero_false; auto.
  - cbn [all_zero]. rewrite forallb_false. split.
    + intros ([a b] & I & H). apply in_pairs in I. apply is_zero_false in H. cbn [fst snd] in H. unfold energy_matrix in H.
      destruct (a =? b); [|exfalso; apply H; reflexivity]. exists (nth a (l_E l) 0%Q). split; auto. apply nth_In. tauto.
    + intros (x & I & H). apply (In_nth _ _ 0%Q) in I. destruct I as (a & La & <-). exists (a, a). rewrite in_pairs. split; auto.
      apply is_zero_false. cbn [fst snd]. unfold energy_matrix. rewrite Nat.eqb_refl. auto.
  - rewrite nonzero_entry. split.
    + intros (m & a & b & L & F & Ha & Hb & H). apply len1 in L. destruct L as (j & ->). forall_inv. exists j, a, b. repeat split; auto.
      intros Z. apply H. rewrite linear_value by auto. exact Z.
    + intros (j & a & b & Hj & Ha & Hb & H). exists [j], a, b. repeat split; auto. rewrite linear_value by auto. exact H.
  - rewrite nonzero_entry. split.
    + intros (m & a & b & L & F & Ha & Hb & H). apply len2 in L. destruct L as (i & j & ->). forall_inv. exists i, j, a, b. rewrite <- higher2 by auto. auto.
    + intros (i & j & a & b & Hi & Hj & Ha & Hb & H). exists [i; j], a, b. rewrite <- higher2 in H by auto. auto 8.
  - rewrite nonzero_entry. split.
    + intros (m & a & b & L & F & Ha & Hb & H). apply len3 in L. destruct L as (i & j & k & ->). forall_inv. exists i, j, k, a, b. rewrite <- higher3 by auto. auto 8.
    + intros (i & j & k & a & b & Hi & Hj & Hk & Ha & Hb & H). exists [i; j; k], a, b. rewrite <- higher3 in H by auto. auto 10.
  - rewrite nonzero_entry. split.
    + intros (m & a & b & L & F & Ha & Hb & H). apply len4 in L. destruct L as (i & j & k & h & ->). forall_inv. exists i, j, k, h, a, b. rewrite <- higher4 by auto. auto 8.
    + intros (i & j & k & h & a & b & Hi & Hj & Hk & Hh & Ha & Hb & H). exists [i; j; k; h], a, b. rewrite <- higher4 in H by auto. auto 12.
Qed.
Print Assumptions C51_present.

(** ** Is it the model described in the file? *)
(** C51: for the linear couplings yes, if every pair of surfaces is listed once *)
Theorem C51_linear l d t : complete l = Ok d -> In (G1_, OCoup 1 t) d ->
  (forall j a b, a < b -> (l_1 l [j] a b == 0)%Q) ->
  forall j a b, b <= a -> a < length (l_E l) -> (t [j] a b == l_1 l [j] a b /\ t [j] b a == l_1 l [j] a b)%Q.
Proof.
  intros E I Z j a b Hab Ha. destruct (C51_values l d G1_ _ E I) as (t' & X & V). inv X. rewrite !V by lia. unfold wanted.
  rewrite (Nat.eqb_sym b a). destruct (Nat.eqb_spec a b) as [->|N]; [split; reflexivity|].
  specialize (Z j b a ltac:(lia)). rewrite Z. split; ring.
Qed.
Print Assumptions C51_linear.
(** C51: a coupling listed for both orders of the surfaces, as in
    examples/paper_1.5025058/input_mctdh/jahnteller_2.op, is doubled *)
Theorem C51_linear_refuted l d t j a b : complete l = Ok d -> In (G1_, OCoup 1 t) d -> a <> b -> a < length (l_E l) ->
  (l_1 l [j] a b == l_1 l [j] b a)%Q -> (t [j] a b == 2 * l_1 l [j] a b)%Q.
Proof.
  intros E I N Ha Q. destruct (C51_values l d G1_ _ E I) as (t' & X & V). inv X. rewrite V by lia. unfold wanted.
  destruct (Nat.eqb_spec a b); [congruence|]. rewrite <- Q. ring.
Qed.
Print Assumptions C51_linear_refuted.

(** all entries of the listing are in the lower triangles *)
Definition lower_only2 (t : coup) : Prop := forall i j a b, i < j \/ a < b -> (t [i; j] a b == 0)%Q.
Definition wanted2 (t : coup) (i j a b : nat) : Q :=
  if i =? j then wanted (t [i; i]) a b else (wanted (t [i; j]) a b + wanted (t [j; i]) a b)%Q.
Ltac cases := repeat match goal with
  | |- context[?x =? ?y] => destruct (Nat.eqb_spec x y); try lia; try subst
  | |- context[?x <? ?y] => destruct (Nat.ltb_spec x y); try lia
  end.
(** C51: a listing of quadratic couplings (lower triangles) gives the array it
    stands for exactly if it only has entries for the last surface *)
Theorem C51_quadratic_iff N A t : lower_only2 t ->
  (forall i j a b, i < N -> j < N -> a < A -> b < A -> (got2 A t i j a b == wanted2 t i j a b)%Q) <->
  (forall i j a b, i < N -> j < N -> a < A -> b < A -> ~ (a = A - 1 /\ b = A - 1) -> (t [i; j] a b == 0)%Q).
Proof.
  intros LO. unfold got2, got, mirrored2, wanted2, wanted. split.
  - intros H i j a b Hi Hj Ha Hb L. destruct (Nat.lt_ge_cases i j); [apply LO; auto|]. destruct (Nat.lt_ge_cases a b); [apply LO; auto|].
    specialize (H i j a b Hi Hj Ha Hb). revert H. cases; intros HX.
    + lra.
    + rewrite (LO j i b b) in HX by lia. lra.
    + rewrite (LO j j b a) in HX by lia. lra.
    + rewrite (LO j i a b), (LO j i b a), (LO i j b a) in HX by lia. lra.
  - intros H i j a b Hi Hj Ha Hb.
    assert (D : a = A - 1 /\ b = A - 1 \/ ~ (a = A - 1 /\ b = A - 1)) by lia. destruct D as [[-> ->]|L].
    + cases.
      * field.
      * rewrite (LO i j) by lia. field.
      * rewrite (LO j i) by lia. field.
    + destruct (i <? j); destruct (a <? b); destruct (b =? A - 1); destruct (Nat.eqb_spec a b); subst; destruct (Nat.eqb_spec i j); subst; rewrite ?H by lia; ring.
Qed.
Print Assumptions C51_quadratic_iff.

(** a listing read from a file has the last two modes equal *)
Definition repeated3 (t : coup) : Prop := forall i j k a b, j <> k -> (t [i; j; k] a b == 0)%Q.
Definition repeated4 (t : coup) : Prop := forall i j k h a b, k <> h -> (t [i; j; k; h] a b == 0)%Q.
Lemma got_ext A y x x' a b : (forall a b, y a b == x' a b)%Q -> (forall a b, x a b == x' a b)%Q -> (got A y x a b == got A x' x' a b)%Q.
Proof. intros H H'. unfold got. destruct (a =? b); [rewrite !H; reflexivity|]. destruct (a <? b); rewrite !H, !H'; reflexivity. Qed.
Lemma got3_raw A t i j k a b : repeated3 t -> (got3 A t i j k a b == got A (t [i; j; k]) (t [i; j; k]) a b)%Q.
Proof.
  intros R. apply got_ext; intros; [|reflexivity]. unfold mirrored3. destruct (Nat.ltb_spec i j); [rewrite (R k j i) by lia|]; ring.
Qed.
Lemma got4_raw A t i j k h a b : repeated4 t -> (got4 A t i j k h a b == got A (t [i; j; k; h]) (t [i; j; k; h]) a b)%Q.
Proof.
  intros R. apply got_ext; intros; [|reflexivity]. unfold mirrored4. destruct (Nat.ltb_spec i j); [rewrite (R h k j i) by lia|]; ring.
Qed.
(** one listing, surfaces in the lower triangle *)
Lemma got_iff A x : (forall a b, a < b -> (x a b == 0)%Q) ->
  (forall a b, a < A -> b < A -> (got A x x a b == wanted x a b)%Q) <-> (forall a b, a < A -> b < A -> ~ (a = A - 1 /\ b = A - 1) -> (x a b == 0)%Q).
Proof.
  intros LO. unfold got, wanted. split.
  - intros H a b Ha Hb L. destruct (Nat.lt_ge_cases a b); [apply LO; auto|]. specialize (H a b Ha Hb). revert H. cases; intros HX.
    + lra.
    + rewrite (LO b a) in HX by lia. lra.
  - intros H a b Ha Hb. assert (D : a = A - 1 /\ b = A - 1 \/ ~ (a = A - 1 /\ b = A - 1)) by lia. destruct D as [[-> ->]|L].
    + cases. field.
    + destruct (a <? b); destruct (b =? A - 1); destruct (Nat.eqb_spec a b); subst; rewrite ?H by lia; ring.
Qed.
(** surfaces in the upper triangle *)
Lemma got_iff_upper A x : (forall a b, b < a -> (x a b == 0)%Q) ->
  (forall a b, a < A -> b < A -> (got A x x a b == wanted x a b)%Q) <-> (forall a, a < A - 1 -> (x a a == 0)%Q /\ (x a (A - 1)%nat == 0)%Q).
Proof.
  intros LO. unfold got, wanted. split.
  - intros H a Ha. split.
    + specialize (H a a ltac:(lia) ltac:(lia)). revert H. cases. intros. lra.
    + specialize (H a (A - 1) ltac:(lia) ltac:(lia)). revert H. cases. intros HX. rewrite (LO (A - 1) a) in HX by lia. lra.
  - intros H a b Ha Hb. cases.
    + field.
    + destruct (H a ltac:(lia)) as [_ Z]. rewrite Z, (LO (A - 1) a) by lia. ring.
    + destruct (H b ltac:(lia)) as [Z _]. rewrite Z. ring.
    + rewrite (LO b a) by lia. ring.
    + rewrite (LO a b) by lia. ring.
Qed.
(** C51: the same for cubic and quartic couplings *)
Theorem C51_cubic_iff N A t : repeated3 t -> (forall i j k a b, a < b -> (t [i; j; k] a b == 0)%Q) ->
  (forall i j k a b, i < N -> j < N -> k < N -> a < A -> b < A -> (got3 A t i j k a b == wanted (t [i; j; k]) a b)%Q) <->
  (forall i j k a b, i < N -> j < N -> k < N -> a < A -> b < A -> ~ (a = A - 1 /\ b = A - 1) -> (t [i; j; k] a b == 0)%Q).
Proof.
  intros R LO. split.
  - intros H i j k a b Hi Hj Hk Ha Hb L. apply (proj1 (got_iff A (t [i; j; k]) (LO i j k))); auto.
    intros a' b' Ha' Hb'. rewrite <- got3_raw by auto. auto.
  - intros H i j k a b Hi Hj Hk Ha Hb. rewrite got3_raw by auto. apply (proj2 (got_iff A (t [i; j; k]) (LO i j k))); auto.
Qed.
Print Assumptions C51_cubic_iff.
Theorem C51_quartic_iff N A t : repeated4 t -> (forall i j k h a b, a < b -> (t [i; j; k; h] a b == 0)%Q) ->
  (forall i j k h a b, i < N -> j < N -> k < N -> h < N -> a < A -> b < A -> (got4 A t i j k h a b == wanted (t [i; j; k; h]) a b)%Q) <->
  (forall i j k h a b, i < N -> j < N -> k < N -> h < N -> a < A -> b < A -> ~ (a = A - 1 /\ b = A - 1) -> (t [i; j; k; h] a b == 0)%Q).
Proof.
  intros R LO. split.
  - intros H i j k h a b Hi Hj Hk Hh Ha Hb L. apply (proj1 (got_iff A (t [i; j; k; h]) (LO i j k h))); auto.
    intros a' b' Ha' Hb'. rewrite <- got4_raw by auto. auto.
  - intros H i j k h a b Hi Hj Hk Hh Ha Hb. rewrite got4_raw by auto. apply (proj2 (got_iff A (t [i; j; k; h]) (LO i j k h))); auto.
Qed.
Print Assumptions C51_quartic_iff.
(** C51: if the file lists the upper triangle instead *)
Theorem C51_cubic_upper_iff N A t : repeated3 t -> (forall i j k a b, b < a -> (t [i; j; k] a b == 0)%Q) ->
  (forall i j k a b, i < N -> j < N -> k < N -> a < A -> b < A -> (got3 A t i j k a b == wanted (t [i; j; k]) a b)%Q) <->
  (forall i j k a, i < N -> j < N -> k < N -> a < A - 1 -> (t [i; j; k] a a == 0)%Q /\ (t [i; j; k] a (A - 1)%nat == 0)%Q).
Proof.
  intros R LO. split.
  - intros H i j k a Hi Hj Hk Ha. apply (proj1 (got_iff_upper A (t [i; j; k]) (LO i j k))); auto.
    intros a' b' Ha' Hb'. rewrite <- got3_raw by auto. auto.
  - intros H i j k a b Hi Hj Hk Ha Hb. rewrite got3_raw by auto. apply (proj2 (got_iff_upper A (t [i; j; k]) (LO i j k))); auto.
Qed.
Print Assumptions C51_cubic_upper_iff.

(** C51: a quadratic coupling between two surfaces makes the import fail *)
Lemma not_near_2 x : ((1 # 50000000) < Qabs x)%Q -> ~ near x (2 * x) /\ ~ near ((1 # 2) * x) (2 * x).
Proof.
  unfold near. intros H. rewrite (Qabs_Qmult 2 x). rewrite (Qabs_pos 2) by lra.
  setoid_replace (x - 2 * x)%Q with (- x)%Q by ring. setoid_replace ((1 # 2) * x - 2 * x)%Q with (- ((3 # 2) * x))%Q by ring.
  rewrite !Qabs_opp, (Qabs_Qmult (3 # 2)), (Qabs_pos (3 # 2)) by lra. split; intros L; lra.
Qed.
Theorem C51_coupled_fails l i j a b : lower_only2 (l_2 l) -> j <= i -> i < length (l_w l) -> b < a -> a < length (l_E l) ->
  ((1 # 50000000) < Qabs (l_2 l [i; j] a b))%Q -> complete l = Raise AssertionError.
Proof.
  intros LO Hji Hi Hba Ha Big. apply C51_accepts. intros (H & _). destruct (H i j b a Hi ltac:(lia) ltac:(lia) Ha) as [S _].
  revert S. unfold got2, got, mirrored2. set (A := length (l_E l)) in *. destruct (not_near_2 _ Big) as [N1 N2].
  assert (NE : forall x x' y y', (x == x')%Q -> (y == y')%Q -> near x y -> near x' y').
  { intros x x' y y' E F K. apply near_close. rewrite <- (close_Qeq x y) by auto. apply near_close. auto. }
  cases; intros K.
  - apply N2. eapply NE; [| |exact K]; rewrite (LO i j b (A - 1)) by lia; ring.
  - apply N1. eapply NE; [| |exact K]; rewrite (LO i j b a) by lia; ring.
Qed.
Print Assumptions C51_coupled_fails.
(** C51: if all couplings of higher order are within one surface the import
    succeeds, and doubles the quadratic couplings of all surfaces but the last *)
Theorem C51_doubled l : lower_only2 (l_2 l) -> repeated3 (l_3 l) -> repeated4 (l_4 l) ->
  (forall m a b, a <> b -> (l_2 l m a b == 0)%Q /\ (l_3 l m a b == 0)%Q /\ (l_4 l m a b == 0)%Q) ->
  exists d, complete l = Ok d /\
  forall t, In (G2_, OCoup 2 t) d -> forall i j a, j <= i -> a < length (l_E l) ->
    (t [i; j] a a == (if (a =? length (l_E l) - 1)%nat then 1 else 2) * l_2 l [i; j] a a)%Q.
Proof.
  intros LO R3 R4 D. set (A := length (l_E l)).
  assert (NE : forall x y, (x == y)%Q -> near x y) by (intros x y E; apply near_close, close_eq; auto).
  assert (G : forall x y a b, (forall a b, a <> b -> (x a b == 0)%Q) -> (forall a b, a <> b -> (y a b == 0)%Q) ->
     (got A y x a b == if (a =? b)%nat then (if (b =? A - 1)%nat then 1 else 2) * y a a else 0)%Q).
  { intros x y a b X Y. unfold got. destruct (Nat.eqb_spec a b) as [->|N].
    - destruct (b =? A - 1); field.
    - destruct (a <? b); rewrite !Y by auto; rewrite X by auto; destruct (b =? A - 1); ring. }
  assert (D2 : forall i j a b, a <> b -> (mirrored2 (l_2 l) i j a b == 0)%Q).
  { intros i j a b N. unfold mirrored2. destruct (D [i; j] a b N) as (-> & _). destruct (i <? j); [destruct (D [j; i] a b N) as (-> & _)|]; ring. }
  assert (S : symmetric_enough (length (l_w l)) A l).
  { split; [|split].
    - intros i j a b _ _ Ha Hb.
      assert (Q1 : forall i j a b, (got2 A (l_2 l) i j a b == if (a =? b)%nat then (if (b =? A - 1)%nat then 1 else 2) * mirrored2 (l_2 l) i j a a else 0)%Q).
      { intros. apply G; [|apply D2]. intros. apply D; auto. }
      split; apply NE; rewrite !Q1.
      + rewrite (Nat.eqb_sym b a). destruct (Nat.eqb_spec a b); [subst|]; reflexivity.
      + destruct (a =? b); [|reflexivity]. assert (M : (mirrored2 (l_2 l) i j a a == mirrored2 (l_2 l) j i a a)%Q); [|rewrite M; reflexivity].
        unfold mirrored2. destruct (Nat.lt_trichotomy i j) as [L|[->|L]]; [|reflexivity|].
        -- destruct (Nat.ltb_spec i j); [|lia]. destruct (Nat.ltb_spec j i); [lia|]. rewrite (LO i j) by lia. ring.
        -- destruct (Nat.ltb_spec i j); [lia|]. destruct (Nat.ltb_spec j i); [|lia]. rewrite (LO j i) by lia. ring.
    - intros i j k a b _ _ _ Ha Hb.
      assert (Q1 : forall k a b, (got3 A (l_3 l) i j k a b == if (a =? b)%nat then (if (b =? A - 1)%nat then 1 else 2) * l_3 l [i; j; k] a a else 0)%Q).
      { intros. rewrite got3_raw by auto. apply G; intros; apply D; auto. }
      split; apply NE; rewrite ?Q1.
      + rewrite (Nat.eqb_sym b a). destruct (Nat.eqb_spec a b); [subst|]; reflexivity.
      + rewrite got3_raw by auto. rewrite G by (intros; apply D; auto). destruct (a =? b); [|reflexivity].
        destruct (Nat.eq_dec j k) as [->|N]; [reflexivity|]. rewrite (R3 i j k), (R3 i k j) by auto. reflexivity.
    - intros i j k h a b _ _ _ _ Ha Hb.
      assert (Q1 : forall k h a b, (got4 A (l_4 l) i j k h a b == if (a =? b)%nat then (if (b =? A - 1)%nat then 1 else 2) * l_4 l [i; j; k; h] a a else 0)%Q).
      { intros. rewrite got4_raw by auto. apply G; intros; apply D; auto. }
      split; apply NE; rewrite ?Q1.
      + rewrite (Nat.eqb_sym b a). destruct (Nat.eqb_spec a b); [subst|]; reflexivity.
      + destruct (a =? b); [|reflexivity]. destruct (Nat.eq_dec k h) as [->|N]; [reflexivity|]. rewrite (R4 i j k h), (R4 i j h k) by auto. reflexivity. }
  apply C51_accepts in S. destruct S as [d E]. exists d. split; auto. intros t I i j a Hji Ha.
  destruct (C51_values l d G2_ _ E I) as (t' & X & V). inv X. rewrite V by auto. fold A. unfold got2. rewrite G.
  - rewrite Nat.eqb_refl. unfold mirrored2. destruct (Nat.ltb_spec i j); [lia|]. destruct (a =? A - 1); ring.
  - intros. apply D; auto.
  - apply D2.
Qed.
Print Assumptions C51_doubled.

(** ** Examples *)
Definition ex_1 : coup := fun m a b => match m, a, b with [0], 0, 0 => (72 # 1000)%Q | [1], 1, 0 => (1 # 5)%Q | _, _, _ => 0%Q end.
Definition ex_2 : coup := fun m a b => match m, a, b with [1; 0], 0, 0 => 3%Q | [1; 1], 1, 1 => 5%Q | _, _, _ => 0%Q end.
Definition ex_3 : coup := fun m a b => match m, a, b with [0; 0; 0], 0, 0 => 7%Q | [0; 1; 1], 1, 1 => 9%Q | _, _, _ => 0%Q end.
Definition ex_listing := mkListing [(1 # 50)%Q; (1 # 25)%Q] [(1 # 10)%Q; (1 # 5)%Q] ex_1 ex_2 ex_3 zeros.
Definition ex_result := match complete ex_listing with Ok d => d | Raise _ => [] end.
Definition ex_value (k : vmk) (m : list nat) (a b : nat) : option Q :=
  match find (fun kv => vmk_eqb (fst kv) k) ex_result with
  | Some (_, OCoup _ t) => Some (Qred (t m a b))
  | _ => None
  end.
(** C51_accepts, C51_values, C51_present *)
Example C51_accepts_example : (exists d, complete ex_listing = Ok d) /\ map fst ex_result = [N_; A_; E_; w_; G1_; G2_; G3_].
Proof.
  split; [|vm_compute; reflexivity].
  assert (R : (match complete ex_listing with Ok _ => true | Raise _ => false end) = true) by (vm_compute; reflexivity).
  destruct (complete ex_listing) as [d|e]; [|discriminate]. exists d. auto.
Qed.
(** C51_linear: listed below the diagonal, present on both sides *)
Example C51_linear_example :
  (forall j a b, a < b -> (l_1 ex_listing [j] a b == 0)%Q) /\ ex_value G1_ [0] 0 0 = Some (9 # 125)%Q /\
  ex_value G1_ [1] 1 0 = Some (1 # 5)%Q /\ ex_value G1_ [1] 0 1 = Some (1 # 5)%Q.
Proof.
  split; [|vm_compute; auto]. intros j a b L. cbn. unfold ex_1.
  destruct j as [|[|]], a as [|[|]], b as [|]; try lia; reflexivity.
Qed.
(** C51_linear_refuted: listed on both sides, doubled *)
Definition ex_both := mkListing [(1 # 50)%Q] [(1 # 10)%Q; (1 # 5)%Q]
  (fun m a b => if (a =? b)%nat then 0 else 3)%Q zeros zeros zeros.
Example C51_linear_refuted_example :
  (l_1 ex_both [0%nat] 0%nat 1%nat == l_1 ex_both [0%nat] 1%nat 0%nat)%Q /\
  match complete ex_both with
  | Ok d => map (fun kv => match kv with (G1_, OCoup _ t) => Some (Qred (t [0] 0 1)) | _ => None end) d = [None; None; None; None; Some 6%Q]
  | Raise _ => False
  end.
Proof. split; [reflexivity|]. vm_compute. reflexivity. Qed.
(** C51_doubled, C51_quadratic_iff, C51_cubic_iff: the first surface is doubled, the last one is not *)
Example C51_doubled_example : lower_only2 ex_2 /\ repeated3 ex_3 /\ repeated4 zeros /\
  (forall m a b, a <> b -> (ex_2 m a b == 0)%Q /\ (ex_3 m a b == 0)%Q) /\
  ex_value G2_ [1; 0] 0 0 = Some 6%Q /\ ex_value G2_ [0; 1] 0 0 = Some 6%Q /\ ex_value G2_ [1; 1] 1 1 = Some 5%Q /\
  ex_value G3_ [0; 0; 0] 0 0 = Some 14%Q /\ ex_value G3_ [0; 1; 1] 1 1 = Some 9%Q.
Proof.
  split; [|split; [|split; [|split; [|vm_compute; tauto]]]].
  - intros i j a b L. unfold ex_2. destruct i as [|[|]], j as [|[|]], a as [|[|]], b as [|[|]]; try lia; reflexivity.
  - intros i j k a b L. unfold ex_3. destruct i as [|[|]], j as [|[|]], k as [|[|]]; try lia; try reflexivity; destruct a as [|[|]], b as [|[|]]; try lia; reflexivity.
  - intros i j k h a b L. reflexivity.
  - intros m a b L. split; [unfold ex_2|unfold ex_3]; repeat (match goal with |- context[match ?x with _ => _ end] => destruct x end; try lia; try reflexivity).
Qed.
(** C51_coupled_fails *)
Definition ex_coupled := mkListing [(1 # 50)%Q; (1 # 25)%Q] [(1 # 10)%Q; (1 # 5)%Q] zeros
  (fun m a b => match m, a, b with [1; 0], 1, 0 => 3%Q | _, _, _ => 0%Q end) zeros zeros.
Example C51_coupled_example : lower_only2 (l_2 ex_coupled) /\ ((1 # 50000000) < Qabs (l_2 ex_coupled [1%nat; 0%nat] 1%nat 0%nat))%Q /\
  complete ex_coupled = Raise AssertionError.
Proof.
  split; [|split; [vm_compute; reflexivity|vm_compute; reflexivity]].
  intros i j a b L. cbn. destruct i as [|[|]], j as [|[|]], a as [|[|]], b as [|[|]]; try lia; reflexivity.
Qed.
