From Coq Require Import QArith Sorting.Sorted Lia.
From Verif Require Import Common Common_Proofs PyStr_Model PyStr_Proofs FileName_Model FileName_Proofs FileStruct_Model Json_Model ModelOp_Spec Analysis_Model Analysis_Proofs Zmat_Spec Zmat_Proofs Plot_Spec Plot_Model.
Local Open Scope string_scope.
Local Open Scope list_scope.
Local Open Scope nat_scope.

Lemma sorted_increasing_Z l : StronglySorted Z.lt l -> increasing_Z l.
Proof.
  intros H. induction H as [|a l H IH F]; intros i j x y X Y L; [destruct i; discriminate|].
  destruct j as [|j]; [lia|]. cbn in Y. destruct i as [|i].
  - injection X as <-. rewrite Forall_forall in F. apply F. eapply nth_error_In. exact Y.
  - cbn in X. apply (IH i j); auto. lia.
Qed.
Lemma sorted_increasing_Q l : StronglySorted Qlt l -> increasing_Q l.
Proof.
  intros H. induction H as [|a l H IH F]; intros i j x y X Y L; [destruct i; discriminate|].
  destruct j as [|j]; [lia|]. cbn in Y. destruct i as [|i].
  - injection X as <-. rewrite Forall_forall in F. apply F. eapply nth_error_In. exact Y.
  - cbn in X. apply (IH i j); auto. lia.
Qed.
Lemma increasing_Z_one l i j x : increasing_Z l -> nth_error l i = Some x -> nth_error l j = Some x -> i = j.
Proof.
  intros H X Y. destruct (Nat.lt_trichotomy i j) as [L|[E|L]]; [|exact E|].
  - pose proof (H i j x x X Y L). lia.
  - pose proof (H j i x x Y X L). lia.
Qed.
Lemma increasing_Q_one l i j x y : increasing_Q l -> nth_error l i = Some x -> nth_error l j = Some y -> (x == y)%Q -> i = j.
Proof.
  intros H X Y E. destruct (Nat.lt_trichotomy i j) as [L|[E'|L]]; [|exact E'|].
  - pose proof (H i j x y X Y L) as K. rewrite E in K. destruct (Qlt_irrefl _ K).
  - pose proof (H j i y x Y X L) as K. rewrite E in K. destruct (Qlt_irrefl _ K).
Qed.
Lemma quiet_extract dir x : quiet_dir dir -> entry_ok x ->
  extract_bead (entry_path dir x) = Ok (fst (fst x)) /\
  (exists q, extract_temperature_thermo (entry_path dir x) = Ok q /\ (q == hundredths (snd (fst x)) # 100)%Q) /\
  extract_sample_thermo (entry_path dir x) = Ok (snd x).
Proof.
  intros (A & B & C) (E1 & E2). unfold entry_path. apply extract_thermo; auto.
  - apply all_chars_iff. intros c I. apply negb_true_iff, Ascii.eqb_neq. intros ->. exact (A I).
  - destruct (contains "_T" dir) eqn:K; [|reflexivity]. apply contains_spec in K. destruct K as (a & b & E). destruct (B a b E).
  - destruct (contains "_X" dir) eqn:K; [|reflexivity]. apply contains_spec in K. destruct K as (a & b & E). destruct (C a b E).
Qed.
Lemma lists_ok dir l : quiet_dir dir -> Forall entry_ok l ->
  exists p, generate_parameter_lists (map (entry_path dir) l) = Ok p /\
    StronglySorted Z.lt (lst_P p) /\ StronglySorted Qlt (lst_T p) /\ StronglySorted Z.lt (lst_X p) /\
    (forall P, In P (lst_P p) <-> exists x, In x l /\ P = fst (fst x)) /\
    (forall q, In q (lst_T p) -> exists x, In x l /\ (q == hundredths (snd (fst x)) # 100)%Q) /\
    (forall x, In x l -> exists q, In q (lst_T p) /\ (q == hundredths (snd (fst x)) # 100)%Q) /\
    (forall X, In X (lst_X p) <-> exists x, In x l /\ X = snd x).
Proof.
  intros D F.
  assert (M1 : map_res extract_bead (map (entry_path dir) l) = Ok (map (fun x => fst (fst x)) l)).
  { apply map_res_spec. induction F as [|x l O F IH]; [constructor|]. cbn [map]. destruct (quiet_extract dir x D O) as (A & _ & B). constructor; [assumption|]. exact IH. }
  assert (M3 : map_res extract_sample_thermo (map (entry_path dir) l) = Ok (map snd l)).
  { clear M1. apply map_res_spec. induction F as [|x l O F IH]; [constructor|]. cbn [map]. destruct (quiet_extract dir x D O) as (A & _ & B). constructor; [assumption|]. exact IH. }
  assert (M2 : exists ts, map_res extract_temperature_thermo (map (entry_path dir) l) = Ok ts /\ Forall2 (fun x q => (q == hundredths (snd (fst x)) # 100)%Q) l ts).
  { clear M1 M3. induction F as [|x l O F IH]; [exists []; split; [reflexivity|constructor]|]. destruct IH as (ts & E & K). destruct (quiet_extract dir x D O) as (_ & (q & Q1 & Q2) & _).
    exists (q :: ts). split; [|constructor; auto]. cbn [map map_res]. rewrite Q1, E. reflexivity. }
  destruct M2 as (ts & M2 & K).
  exists (mkParams (sorted_set (map (fun x => fst (fst x)) l)) (fold_right insert_q [] ts) (sorted_set (map snd l))).
  unfold generate_parameter_lists. rewrite M1, M2, M3. split; [reflexivity|]. cbn [lst_P lst_T lst_X].
  destruct (sorted_set_spec (map (fun x : entry => fst (fst x)) l)) as [SP IP]. destruct (sorted_set_spec (map snd l)) as [SX IX]. destruct (sorted_q ts) as (ST & T1 & T2).
  split; [exact SP|]. split; [exact ST|]. split; [exact SX|].
  split; [intros P; rewrite IP, in_map_iff; split; intros (x & A & B); exists x; split; auto|].
  split; [|split].
  - intros q I. apply T1 in I. clear - K I. induction K as [|x q' l ts E K IH]; [destruct I|]. destruct I as [<-|I]; [exists x; split; [left; auto|exact E]|]. destruct (IH I) as (y & Y & E'). exists y. split; [right; auto|exact E'].
  - intros x I. assert (Q : exists q, In q ts /\ (q == hundredths (snd (fst x)) # 100)%Q).
    { clear - K I. induction K as [|y q l ts E K IH]; [destruct I|]. destruct I as [->|I]; [exists q; split; [left; auto|exact E]|]. destruct (IH I) as (q' & Y & E'). exists q'. split; [right; auto|exact E']. }
    destruct Q as (q & Q1 & Q2). destruct (T2 q Q1) as (y & Y & E). exists y. split; [exact Y|]. rewrite E. exact Q2.
  - intros X. rewrite IX, in_map_iff. split; intros (x & A & B); exists x; split; auto.
Qed.

Lemma index_ok {A} (eqb : A -> A -> bool) x l i y :
  nth_error l i = Some y -> eqb y x = true -> (forall j z, j < i -> nth_error l j = Some z -> eqb z x = false) -> index eqb x l = Ok i.
Proof.
  revert i. induction l as [|a l IH]; intros i N E B; [destruct i; discriminate|]. cbn [index]. destruct i as [|i].
  - injection N as ->. rewrite E. reflexivity.
  - rewrite (B 0 a) by (auto; lia). cbn in N. rewrite (IH i N E); [reflexivity|]. intros j z J Z. apply (B (S j) z); [lia|exact Z].
Qed.
Lemma index_Z l i x : increasing_Z l -> nth_error l i = Some x -> index Z.eqb x l = Ok i.
Proof.
  intros H N. eapply index_ok; [exact N|apply Z.eqb_refl|]. intros j z J Z. apply Z.eqb_neq. pose proof (H j i z x Z N J). lia.
Qed.
Lemma index_NoDup l i (x : Z) : NoDup l -> nth_error l i = Some x -> index Z.eqb x l = Ok i.
Proof.
  intros H N. eapply index_ok; [exact N|apply Z.eqb_refl|]. intros j z J Z. apply Z.eqb_neq. intros ->.
  assert (j = i); [|lia]. rewrite NoDup_nth_error in H. apply H; [apply nth_error_Some; congruence|congruence].
Qed.
Lemma index_Q l i x y : increasing_Q l -> nth_error l i = Some y -> (y == x)%Q -> index Qeq_bool x l = Ok i.
Proof.
  intros H N E. eapply index_ok; [exact N|apply Qeq_bool_iff; exact E|]. intros j z J Z. destruct (Qeq_bool z x) eqn:B; [|reflexivity].
  apply Qeq_bool_iff in B. pose proof (H j i z y Z N J) as K. rewrite B, E in K. destruct (Qlt_irrefl _ K).
Qed.

Section P.
  Variable F : Type.
  Variable nan : F.
  Variable of_int : Z -> res F.
  Variable of_repr : string -> F.
  Variable of_text : string -> res F.
  Notation to_f64 := (to_f64 F nan of_int of_repr of_text).
  Notation grid := (grid F).
  Notation cell := (cell F).

  (** a loop that changes one slice after the other *)
  Lemma fold_slices {X} (body : grid -> X -> res grid) (sel : nat -> nat -> nat -> nat) (f : X -> nat -> nat -> nat -> string -> F -> F) (L : list X) :
    (forall g m x, nth_error L m = Some x -> exists g', body g x = Ok g' /\
       dimP F g' = dimP F g /\ dimT F g' = dimT F g /\ dimX F g' = dimX F g /\
       forall i j k n, cell g' i j k n = if Nat.eqb (sel i j k) m then f x i j k n (cell g i j k n) else cell g i j k n) ->
    forall g, exists g', for_res body L g = Ok g' /\ dimP F g' = dimP F g /\ dimT F g' = dimT F g /\ dimX F g' = dimX F g /\
      forall i j k n, cell g' i j k n = match nth_error L (sel i j k) with Some x => f x i j k n (cell g i j k n) | None => cell g i j k n end.
  Proof.
    intros B.
    assert (G : forall l pre g, L = pre ++ l -> exists g', for_res body l g = Ok g' /\ dimP F g' = dimP F g /\ dimT F g' = dimT F g /\ dimX F g' = dimX F g /\
      forall i j k n, cell g' i j k n = if List.length pre <=? sel i j k then match nth_error L (sel i j k) with Some x => f x i j k n (cell g i j k n) | None => cell g i j k n end else cell g i j k n).
    { induction l as [|x l IH]; intros pre g E.
      - exists g. repeat split; auto. intros i j k n. destruct (Nat.leb_spec (List.length pre) (sel i j k)) as [H|H]; [|reflexivity].
        destruct (nth_error L (sel i j k)) eqn:N; [|reflexivity]. assert (sel i j k < List.length L) by (apply nth_error_Some; congruence). rewrite E, app_nil_r in H0. lia.
      - assert (N : nth_error L (List.length pre) = Some x) by (rewrite E, nth_error_app2, Nat.sub_diag; auto).
        destruct (B g _ _ N) as (g1 & E1 & D1 & D2 & D3 & C1). destruct (IH (pre ++ [x]) g1 ltac:(rewrite E, <- app_assoc; reflexivity)) as (g2 & E2 & D4 & D5 & D6 & C2).
        exists g2. cbn [for_res]. rewrite E1. split; [exact E2|]. split; [congruence|]. split; [congruence|]. split; [congruence|].
        intros i j k n. rewrite C2, app_length. cbn [List.length]. rewrite !C1.
        destruct (Nat.eqb_spec (sel i j k) (List.length pre)) as [H|H].
        + rewrite H. destruct (Nat.leb_spec (List.length pre + 1) (List.length pre)); [lia|]. rewrite Nat.leb_refl, N. reflexivity.
        + destruct (Nat.leb_spec (List.length pre + 1) (sel i j k)), (Nat.leb_spec (List.length pre) (sel i j k)); try lia; reflexivity. }
    intros g. destruct (G L [] g eq_refl) as (g' & E & D1 & D2 & D3 & C). exists g'. repeat split; auto.
  Qed.
End P.
