(** Facts about the Python built-ins of Common.v. *)
From Verif Require Import Common.

Lemma bind_ok {A B} (x : res A) (f : A -> res B) b :
  bind x f = Ok b <-> exists a, x = Ok a /\ f a = Ok b.
Proof.
  destruct x; simpl; split.
  - eauto.
  - intros (a' & H & ?). inversion H; subst; auto.
  - discriminate.
  - intros (a' & H & ?). discriminate.
Qed.

Lemma Forall2_length {A B} (P : A -> B -> Prop) l l' : Forall2 P l l' -> length l = length l'.
Proof. induction 1; simpl; auto. Qed.

Ltac inv H := inversion H; subst; clear H.

(** solve goals about [bind] by case analysis of the first computation *)
Ltac bdestr H :=
  apply bind_ok in H; let x := fresh "x" in let E := fresh "E" in destruct H as (x & E & H).

Lemma for_res_app {X S} (body : S -> X -> res S) l1 l2 s :
  for_res body (l1 ++ l2) s = (do s' <- for_res body l1 s; for_res body l2 s').
Proof.
  revert s; induction l1; intros s; simpl; auto.
  destruct (body s a); simpl; auto.
Qed.

Lemma for_res_unit_ok {X} (f : X -> res unit) l s :
  for_res (fun _ x => f x) l s = Ok tt <-> (l = [] /\ s = tt) \/ (l <> [] /\ forall x, In x l -> f x = Ok tt).
Proof.
  destruct s. split.
  - intros H. destruct l as [|y l]; [left; auto|right]. split; [congruence|].
    revert H. generalize (y :: l). clear. induction l; simpl; intros H x Hx; [easy|].
    destruct (f a) as [[]|] eqn:E; try discriminate.
    destruct Hx as [<-|Hx]; auto.
  - intros [[-> _]|[_ H]]; auto. induction l; simpl; auto.
    rewrite (H a) by (left; auto). apply IHl. intros; apply H; right; auto.
Qed.

Lemma for_res_unit_all {X} (f : X -> res unit) l :
  for_res (fun _ x => f x) l tt = Ok tt <-> forall x, In x l -> f x = Ok tt.
Proof.
  rewrite for_res_unit_ok. split.
  - intros [[-> _]|[_ H]]; auto. intros x [].
  - intros H. destruct l; [left; auto|right; split; auto; congruence].
Qed.

Section Dict.
  Context {K V : Type}.
  Variable eqb : K -> K -> bool.
  Hypothesis eqb_eq : forall a b, eqb a b = true <-> a = b.

  Lemma eqb_refl_ k : eqb k k = true.
  Proof. apply eqb_eq; auto. Qed.

  Lemma eqb_neq_ a b : a <> b -> eqb a b = false.
  Proof. intros H. destruct (eqb a b) eqn:E; auto. apply eqb_eq in E. contradiction. Qed.

  Lemma dget_In (d : list (K * V)) k v : dget eqb d k = Some v -> In (k, v) d.
  Proof.
    induction d as [|[k' v'] d IH]; simpl; intros H; try discriminate.
    destruct (eqb k k') eqn:E.
    - apply eqb_eq in E. inv H. auto.
    - auto.
  Qed.

  Lemma dget_None (d : list (K * V)) k : dget eqb d k = None <-> ~ In k (map fst d).
  Proof.
    induction d as [|[k' v'] d IH]; simpl.
    - split; auto.
    - destruct (eqb k k') eqn:E.
      + apply eqb_eq in E; subst. split; [discriminate|tauto].
      + rewrite IH. split; intros H; [|tauto]. intros [->|H']; auto.
        rewrite eqb_refl_ in E; discriminate.
  Qed.

  Lemma In_dget (d : list (K * V)) k v : NoDup (map fst d) -> In (k, v) d -> dget eqb d k = Some v.
  Proof.
    induction d as [|[k' v'] d IH]; simpl; intros ND H; [easy|]. inv ND.
    destruct H as [H|H].
    - inv H. rewrite eqb_refl_. auto.
    - rewrite eqb_neq_; auto. intros ->. apply H2. apply (in_map fst) in H. auto.
  Qed.

  Lemma dget_iff (d : list (K * V)) k v : NoDup (map fst d) -> (dget eqb d k = Some v <-> In (k, v) d).
  Proof. intros; split; [apply dget_In|apply In_dget; auto]. Qed.

  Lemma dmem_In (d : list (K * V)) k : dmem eqb d k = true <-> In k (map fst d).
  Proof.
    unfold dmem. destruct (dget eqb d k) eqn:E.
    - split; auto. intros _. apply dget_In in E. apply (in_map fst) in E. auto.
    - apply dget_None in E. split; [discriminate|tauto].
  Qed.

  Lemma dset_fresh (d : list (K * V)) k v : ~ In k (map fst d) -> dset eqb d k v = d ++ [(k, v)].
  Proof.
    induction d as [|[k' v'] d IH]; simpl; intros H; auto.
    rewrite eqb_neq_ by (intros ->; tauto). rewrite IH; tauto.
  Qed.

  Lemma dget_dset_same (d : list (K * V)) k v : dget eqb (dset eqb d k v) k = Some v.
  Proof.
    induction d as [|[k' v'] d IH]; simpl.
    - rewrite eqb_refl_; auto.
    - destruct (eqb k k') eqn:E; simpl; rewrite E; auto.
  Qed.

  Lemma dget_dset_other (d : list (K * V)) k k' v : k' <> k -> dget eqb (dset eqb d k v) k' = dget eqb d k'.
  Proof.
    intros H. induction d as [|[k2 v2] d IH]; simpl.
    - rewrite eqb_neq_; auto.
    - destruct (eqb k k2) eqn:E; simpl.
      + apply eqb_eq in E; subst. rewrite eqb_neq_; auto.
      + rewrite IH; auto.
  Qed.

  Lemma dset_keys (d : list (K * V)) k v x :
    In x (map fst (dset eqb d k v)) <-> x = k \/ In x (map fst d).
  Proof.
    induction d as [|[k2 v2] d IH]; simpl.
    - intuition.
    - destruct (eqb k k2) eqn:E; simpl.
      + apply eqb_eq in E; subst. intuition.
      + rewrite IH. intuition.
  Qed.

  Lemma dset_NoDup (d : list (K * V)) k v : NoDup (map fst d) -> NoDup (map fst (dset eqb d k v)).
  Proof.
    induction d as [|[k2 v2] d IH]; simpl; intros H.
    - repeat constructor; auto.
    - inv H. destruct (eqb k k2) eqn:E; simpl; constructor; auto.
      rewrite dset_keys. intros [->|H]; auto. rewrite eqb_refl_ in E; discriminate.
  Qed.

  Lemma dget_ddel_other (d : list (K * V)) k k' : k' <> k -> dget eqb (ddel eqb d k) k' = dget eqb d k'.
  Proof.
    intros H. induction d as [|[k2 v2] d IH]; simpl; auto.
    destruct (eqb k k2) eqn:E; simpl.
    - apply eqb_eq in E; subst. rewrite eqb_neq_; auto.
    - rewrite IH; auto.
  Qed.





End Dict.
