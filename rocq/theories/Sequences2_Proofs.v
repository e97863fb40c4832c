(** Proofs about turning points. *)
From Coq Require Import Reals QArith Qabs Lqa Lia.
From Verif Require Import Common Common_Proofs Sequences_Model Sequences_Spec Sequences_Proofs.
Local Open Scope nat_scope.

Definition desc_form (T : pair) (rest : list (pair * pair)) : list pair := T :: flat_map (fun rt => [fst rt; snd rt]) rest.
Definition cut (s : Q) (T : pair) (rest : list (pair * pair)) : list (Q * Q) := (s, px T) :: map (fun rt => (px (fst rt), px (snd rt))) rest.
Lemma x_pairs_rest rest : x_pairs_from (flat_map (fun rt => [fst rt; snd rt]) rest) = Ok (map (fun rt => (px (fst rt), px (snd rt))) rest).
Proof. induction rest as [|[r t] rest IH]; auto. cbn [flat_map app x_pairs_from fst snd]. rewrite IH. auto. Qed.
Lemma x_pairs_odd rest R : x_pairs_from (flat_map (fun rt => [fst rt; snd rt]) rest ++ [R]) = Raise IndexError.
Proof. induction rest as [|[r t] rest IH]; auto. cbn [flat_map app x_pairs_from fst snd]. rewrite IH. auto. Qed.
Lemma desc_pairs T rest : generate_x_pairs (desc_form T rest) = Ok (cut 0 T rest).
Proof. unfold desc_form, generate_x_pairs. rewrite x_pairs_rest. auto. Qed.
Lemma asc_pairs T rest R : generate_x_pairs (desc_form T rest ++ [R]) = Raise IndexError.
Proof. unfold desc_form, generate_x_pairs. cbn [app]. rewrite x_pairs_odd. auto. Qed.
Lemma desc_snoc T rest R T' : desc_form T rest ++ [R] ++ [T'] = desc_form T (rest ++ [(R, T')]).
Proof. unfold desc_form. cbn [app]. f_equal. rewrite flat_map_app. auto. Qed.
Lemma cut_snoc s T rest R T' : cut s T (rest ++ [(R, T')]) = cut s T rest ++ [(px R, px T')].
Proof. unfold cut. rewrite map_app. auto. Qed.

Definition row (p : Q * Q) : Q * Q := (snd p, fst p).
Definition from (s : Q) (rows : list (Q * Q)) : list (Q * Q) := filter (fun p => Qle_bool s (snd p)) rows.

Lemma prune_app c c' rows : prune (c ++ c') rows = prune c rows ++ prune c' rows.
Proof. apply flat_map_app. Qed.
Lemma prune_new c rows x y : Forall (fun r => snd r < x)%Q c -> prune c (rows ++ [(y, x)]) = prune c rows.
Proof.
  induction c as [|r c IH]; intros H; auto. inv H. cbn [prune flat_map]. rewrite filter_app.
  change (flat_map _ c) with (prune c (rows ++ [(y, x)])) at 1. rewrite IH by auto. f_equal.
  cbn [filter snd]. replace (Qle_bool x (snd r)) with false.
  - rewrite andb_false_r. apply app_nil_r.
  - symmetry. destruct (Qle_bool x (snd r)) eqn:E; auto. apply Qle_bool_iff in E. lra.
Qed.
Lemma filter_all {A} (f g : A -> bool) l : (forall a, In a l -> f a = g a) -> filter f l = filter g l.
Proof.
  induction l as [|a l IH]; intros H; auto. cbn. rewrite (H a) by (left; auto). rewrite IH; auto. intros b B. apply H. right. auto.
Qed.
Lemma filter_none {A} (f : A -> bool) l : (forall a, In a l -> f a = false) -> filter f l = [].
Proof. induction l as [|a l IH]; intros H; auto. cbn. rewrite (H a) by (left; auto). apply IH. intros b B. apply H. right. auto. Qed.
Lemma prune_one s h rows : (forall p, In p rows -> snd p <= h)%Q -> prune [(s, h)] rows = from s rows.
Proof.
  intros H. cbn [prune flat_map]. rewrite app_nil_r. unfold from. apply filter_all. intros p P. cbn [fst snd].
  rewrite (proj2 (Qle_bool_iff _ _) (H p P)). apply andb_true_r.
Qed.

Lemma records_snoc m P p : records m (P ++ [p]) = records m P ++ (if Qle_bool (peak m P) (snd p) then [p] else []).
Proof.
  revert m. induction P as [|[x y] P IH]; intros m; cbn [app records peak].
  - destruct p as [x y]. cbn [snd]. destruct (Qle_bool m y); auto.
  - destruct (Qle_bool m y); rewrite IH; auto.
Qed.
Lemma peak_snoc m P p : peak m (P ++ [p]) = if Qle_bool (peak m P) (snd p) then snd p else peak m P.
Proof.
  revert m. induction P as [|[x y] P IH]; intros m; cbn [app peak].
  - destruct p as [x y]. cbn [snd]. destruct (Qle_bool m y); auto.
  - destruct (Qle_bool m y); rewrite IH; auto.
Qed.

(** the loop of list_of_turning_points *)
Definition Inv (P : list (Q * Q)) (s : tstate) : Prop :=
  (forall p, In p P -> fst p <= old_x s)%Q /\ (0 <= old_x s)%Q /\
  match turn s with
  | None =>
      old_distance s = peak 0 P /\
      ((xy s = [] /\ from 0 (map row P) = map row (records 0 P)) \/
       exists T rest R, xy s = desc_form T rest ++ [R] /\ (px R <= old_x s)%Q /\
         Forall (fun r => snd r <= old_x s)%Q (cut 0 T rest) /\
         prune (cut 0 T rest) (map row P) ++ from (px R) (map row P) = map row (records 0 P))
  | Some m =>
      m = peak 0 P /\
      exists T rest, xy s = desc_form T rest /\ Forall (fun r => snd r <= old_x s)%Q (cut 0 T rest) /\
        prune (cut 0 T rest) (map row P) = map row (records 0 P)
  end.
Lemma from_app s a b : from s (a ++ b) = from s a ++ from s b.
Proof. apply filter_app. Qed.
Lemma from_in s x y : (s <= x)%Q -> from s [(y, x)] = [(y, x)].
Proof. intros H. unfold from. cbn [filter snd]. rewrite (proj2 (Qle_bool_iff _ _) H). auto. Qed.
Lemma weaken_lt (c : list (Q * Q)) a x : (a < x)%Q -> Forall (fun r => snd r <= a)%Q c -> Forall (fun r => snd r < x)%Q c.
Proof. intros H F. eapply Forall_impl; [|exact F]. cbn. intros. lra. Qed.
Lemma weaken_le (c : list (Q * Q)) a x : (a <= x)%Q -> Forall (fun r => snd r <= a)%Q c -> Forall (fun r => snd r <= x)%Q c.
Proof. intros H F. eapply Forall_impl; [|exact F]. cbn. intros. lra. Qed.

Lemma Inv_step P s x d : Inv P s -> (forall p, In p P -> fst p < x)%Q -> (old_x s < x \/ (P = [] /\ old_x s <= x))%Q -> (0 <= d)%Q ->
  (P = [] -> old_x s = 0%Q /\ old_distance s = 0%Q /\ turn s = None /\ xy s = []) -> Inv (P ++ [(x, d)]) (tstep s (x, d)).
Proof.
  intros (X & X0 & H) L O D E. unfold Inv, tstep.
  assert (OX : (old_x s <= x)%Q) by (destruct O as [O|[_ O]]; lra).
  assert (LX : forall p, In p (P ++ [(x, d)]) -> (fst p <= x)%Q).
  { intros p Hp. apply in_app_iff in Hp. destruct Hp as [Hp|[<-|[]]]; [apply Qlt_le_weak; auto|cbn; lra]. }
  assert (RX : forall p, In p (map row P) -> (snd p < x)%Q).
  { intros p Hp. apply in_map_iff in Hp. destruct Hp as (q & <- & Hq). cbn. auto. }
  assert (RO : forall p, In p (map row P) -> (snd p <= old_x s)%Q).
  { intros p Hp. apply in_map_iff in Hp. destruct Hp as (q & <- & Hq). cbn. auto. }
  rewrite map_app. change (map row [(x, d)]) with [(d, x)].
  destruct (turn s) as [m|] eqn:T.
  - destruct H as (-> & T0 & rest & Hxy & F & K).
    assert (Ostrict : (old_x s < x)%Q) by (destruct O as [O|[O _]]; auto; destruct (E O) as (_ & _ & ? & _); discriminate).
    destruct (Qle_bool (peak 0 P) d) eqn:C; cbn [turn old_distance old_x xy]; (split; [auto|split; [lra|]]).
    + rewrite peak_snoc, records_snoc. cbn [snd]. rewrite C. split; auto. right. exists T0, rest, (mkPair x d). rewrite Hxy.
      split; auto. split; [cbn; lra|]. split; [eapply weaken_le; eauto|].
      rewrite prune_new, from_app by (eapply weaken_lt; eauto). rewrite from_in by (cbn; lra). cbn [px].
      rewrite map_app. rewrite <- K. f_equal. cbn [map row fst snd]. unfold row. cbn [fst snd].
      unfold from at 1. rewrite filter_none; auto. intros a A. specialize (RX a A). destruct (Qle_bool x (snd a)) eqn:Y; auto.
      apply Qle_bool_iff in Y. lra.
    + rewrite peak_snoc, records_snoc. cbn [snd]. rewrite C, app_nil_r. split; auto. exists T0, rest. split; auto.
      split; [eapply weaken_le; eauto|]. rewrite prune_new by (eapply weaken_lt; eauto). auto.
  - destruct H as (PK & H).
    destruct (Qlt_bool d (old_distance s)) eqn:C; cbn [turn old_distance old_x xy]; (split; [auto|split; [lra|]]).
    + apply Qlt_bool_iff in C. assert (CB : Qle_bool (peak 0 P) d = false).
      { destruct (Qle_bool (peak 0 P) d) eqn:Y; auto. apply Qle_bool_iff in Y. rewrite PK in C. lra. }
      assert (Ostrict : (old_x s < x)%Q).
      { destruct O as [O|[O _]]; auto. destruct (E O) as (_ & E2 & _). rewrite E2 in C. lra. }
      rewrite peak_snoc, records_snoc. cbn [snd]. rewrite CB, app_nil_r. split; auto.
      destruct H as [(Hxy & K)|(T0 & rest & R & Hxy & RB & F & K)].
      * exists (mkPair (old_x s) (old_distance s)), []. rewrite Hxy. split; auto.
        assert (F : Forall (fun r => snd r <= old_x s)%Q (cut 0 (mkPair (old_x s) (old_distance s)) [])) by (repeat constructor; cbn; lra).
        split; [eapply weaken_le; eauto|]. rewrite prune_new by (eapply weaken_lt; eauto). rewrite <- K. apply prune_one. auto.
      * exists T0, (rest ++ [(R, mkPair (old_x s) (old_distance s))]). rewrite Hxy, <- desc_snoc, <- app_assoc. split; auto.
        rewrite cut_snoc. assert (F' : Forall (fun r => snd r <= old_x s)%Q (cut 0 T0 rest ++ [(px R, px (mkPair (old_x s) (old_distance s)))])).
        { apply Forall_app. split; auto. repeat constructor. cbn. lra. }
        split; [eapply weaken_le; eauto|]. rewrite prune_new by (eapply weaken_lt; eauto).
        rewrite prune_app, <- K. f_equal. apply prune_one. auto.
    + apply Qlt_bool_false in C. assert (CB : Qle_bool (peak 0 P) d = true) by (apply Qle_bool_iff; rewrite <- PK; auto).
      rewrite peak_snoc, records_snoc. cbn [snd]. rewrite CB. split; auto.
      destruct H as [(Hxy & K)|(T0 & rest & R & Hxy & RB & F & K)].
      * left. split; auto. rewrite from_app, from_in by lra. rewrite map_app, K. auto.
      * right. exists T0, rest, R. split; auto. split; [lra|]. split; [eapply weaken_le; eauto|].
        assert (Ostrict : (old_x s < x)%Q).
        { destruct O as [O|[O _]]; auto. destruct (E O) as (_ & _ & _ & E4). rewrite E4 in Hxy. discriminate. }
        rewrite prune_new by (eapply weaken_lt; eauto). rewrite from_app, from_in by lra. rewrite app_assoc, K, map_app. auto.
Qed.

Definition ordered (scan : list (Q * Q)) : Prop :=
  (forall i j p q, i < j -> nth_error scan i = Some p -> nth_error scan j = Some q -> (fst p < fst q)%Q) /\
  (forall p, In p scan -> 0 <= fst p /\ 0 <= snd p)%Q.
Lemma ordered_app P p : ordered (P ++ [p]) -> ordered P /\ (forall q, In q P -> fst q < fst p)%Q /\ (0 <= fst p)%Q /\ (0 <= snd p)%Q.
Proof.
  intros [A B]. split; [split|split].
  - intros i j a b L Ha Hb. apply (A i j); auto; rewrite nth_error_app1; auto; apply nth_error_Some; congruence.
  - intros q Hq. apply B. apply in_app_iff. auto.
  - intros q Hq. apply In_nth_error in Hq. destruct Hq as [i Hi].
    assert (i < length P) by (apply nth_error_Some; congruence).
    apply (A i (length P)); auto; [rewrite nth_error_app1; auto|rewrite nth_error_app2, Nat.sub_diag by lia; auto].
  - apply B. apply in_app_iff. right. left. auto.
Qed.
Lemma step_distance s p : old_distance (tstep s p) = snd p.
Proof. destruct p as [x d]. unfold tstep. destruct (turn s); match goal with |- context [if ?b then _ else _] => destruct b end; auto. Qed.
Lemma step_turn s x d : turn (tstep s (x, d)) =
  match turn s with
  | None => if Qlt_bool d (old_distance s) then Some (old_distance s) else None
  | Some m => if Qle_bool m d then None else Some m
  end.
Proof. unfold tstep. destruct (turn s); match goal with |- context [if ?b then _ else _] => destruct b end; auto. Qed.
Definition start : tstate := mkT None 0 0 [].
Lemma Inv_run P : ordered P -> Inv P (fold_left tstep P start) /\
  (P = [] \/ exists P' p, P = P' ++ [p] /\ old_x (fold_left tstep P start) = fst p).
Proof.
  induction P as [|[x d] P IH] using rev_ind; intros H.
  - split; [|auto]. split; [intros p []|]. split; [cbn; lra|]. cbn. split; auto.
  - apply ordered_app in H. destruct H as (H & L & B & D). destruct (IH H) as [I O]. cbn [fst snd] in *.
    rewrite fold_left_app. cbn [fold_left]. split.
    + apply Inv_step; auto.
      * destruct O as [->|(P' & p & E & Ho)]; [right; split; auto; cbn; lra|]. left. rewrite Ho. apply L. rewrite E. apply in_app_iff. right. left. auto.
      * intros ->. cbn. auto.
    + right. exists P, (x, d). split; auto. unfold tstep. destruct (turn _); match goal with |- context [if ?b then _ else _] => destruct b end; auto.
Qed.
Theorem pruned_records scan pairs : ordered scan -> generate_x_pairs (list_of_turning_points scan) = Ok pairs ->
  prune pairs (map row scan) = map row (records 0 scan).
Proof.
  intros H G. destruct (Inv_run scan H) as [(_ & _ & I) _]. unfold list_of_turning_points in G. fold start in G.
  destruct (turn (fold_left tstep scan start)) as [m|].
  - destruct I as (_ & T & rest & E & _ & K). rewrite E, desc_pairs in G. inv G. auto.
  - destruct I as (_ & [(E & _)|(T & rest & R & E & _)]); rewrite E in G; [discriminate|]. rewrite asc_pairs in G. discriminate.
Qed.
(** the pairs exist exactly if the scan ends below an earlier value *)
Theorem pairs_exist scan : ordered scan ->
  ((exists pairs, generate_x_pairs (list_of_turning_points scan) = Ok pairs) <->
   exists P p, scan = P ++ [p] /\ exists q, In q P /\ (snd p < snd q)%Q).
Proof.
  intros H. destruct (Inv_run scan H) as [(_ & _ & I) O]. unfold list_of_turning_points. fold start.
  assert (PK : forall P m, (m <= peak m P)%Q /\ (forall q, In q P -> snd q <= peak m P)%Q /\ (peak m P = m \/ exists q, In q P /\ peak m P = snd q)).
  { clear. induction P as [|[x y] P IH]; intros m; cbn [peak].
    - split; [lra|]. split; [intros q []|auto].
    - destruct (Qle_bool m y) eqn:C.
      + apply Qle_bool_iff in C. destruct (IH y) as (A & B & D). split; [lra|]. split.
        * intros q [<-|Hq]; cbn; auto.
        * right. destruct D as [D|(q & Hq & D)]; [exists (x, y); cbn; auto|exists q; cbn; auto].
      + assert (y < m)%Q by (apply Qnot_le_lt; intros K; apply Qle_bool_iff in K; congruence).
        destruct (IH m) as (A & B & D). split; auto. split.
        * intros q [<-|Hq]; cbn; auto. lra.
        * destruct D as [D|(q & Hq & D)]; auto. right. exists q. cbn. auto. }
  assert (TS : forall P p, scan = P ++ [p] -> turn (fold_left tstep scan start) = None -> (snd p == peak 0 scan)%Q).
  { intros P p E T. clear O. subst scan. rewrite T in I. destruct I as [I _]. rewrite <- I. rewrite fold_left_app in T |- *. cbn [fold_left] in T |- *. destruct p as [x d].
    rewrite step_distance. cbn. lra. }
  split.
  - intros [pairs G]. destruct (turn (fold_left tstep scan start)) as [m|] eqn:T.
    + destruct O as [->|(P & p & E & _)]; [discriminate|]. exists P, p. split; auto.
      destruct (PK P 0%Q) as (A & B & C).
      assert (SP : (snd p < peak 0 P)%Q).
      { apply Qnot_le_lt. intros K. subst scan. rewrite fold_left_app in T. cbn [fold_left] in T. destruct p as [x d]. cbn [snd] in K.
        apply ordered_app in H. destruct H as (HP & _). destruct (Inv_run P HP) as [(_ & _ & I') _].
        rewrite step_turn in T. destruct (turn (fold_left tstep P start)) as [m'|].
        - destruct I' as [-> _]. rewrite (proj2 (Qle_bool_iff _ _) K) in T. discriminate.
        - destruct I' as [E' _]. rewrite E' in T. rewrite (proj2 (Qlt_bool_false _ _) K) in T. discriminate. }
      destruct C as [C|(q & Hq & C)]; [|exists q; rewrite <- C; auto].
      exfalso. rewrite C in SP. destruct H as [_ H]. assert (0 <= snd p)%Q by (apply H; subst scan; apply in_app_iff; right; left; auto). lra.
    + destruct I as (_ & [(E & _)|(T' & rest & R & E & _)]); rewrite E in G; [discriminate|]. rewrite asc_pairs in G. discriminate.
  - intros (P & p & E & q & Hq & L). destruct (turn (fold_left tstep scan start)) as [m|] eqn:T.
    + destruct I as (_ & T' & rest & E' & _). rewrite E', desc_pairs. eauto.
    + exfalso. specialize (TS P p E eq_refl). destruct (PK scan 0%Q) as (_ & B & _).
      assert (snd q <= peak 0 scan)%Q by (apply B; subst scan; apply in_app_iff; auto). lra.
Qed.
