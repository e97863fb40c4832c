(** Lemmas for C104 *)
From Coq Require Import QArith Lia.
From Verif Require Import Common Common_Proofs PyStr_Model FileName_Model FileName_Proofs Json_Model FileStruct_Model Results_Model Analysis_Model Plot_Spec Plot_Model Plot_Proofs Grid_Proofs Chart_Model.
Local Open Scope string_scope.
Local Open Scope list_scope.
Local Open Scope nat_scope.

Lemma prune_in h hv hr paths out : prune h hv hr paths = Ok out ->
  forall p, In p out <-> In p paths /\ h p = Some (Some hv, Some hr).
Proof.
  revert out. induction paths as [|q ps IH]; intros out E p; cbn [prune] in E.
  - injection E as <-. cbn. tauto.
  - destruct (_ || _)%bool; [|discriminate]. destruct (h q) as [[[a|] [b|]]|] eqn:HQ; try discriminate.
    + destruct (prune h hv hr ps) as [rest|e]; [|discriminate]. cbn [bind] in E. specialize (IH rest eq_refl p).
      destruct (String.eqb a hv) eqn:A; [destruct (String.eqb b hr) eqn:B|]; cbn [andb] in E; injection E as <-.
      * apply String.eqb_eq in A, B. subst. cbn [In]. rewrite IH. split; [intros [->|[]]; auto|intros [[->|] ]; auto].
      * rewrite IH. cbn [In]. split; [tauto|]. intros [[->|I] K]; [|auto]. rewrite HQ in K. injection K as _ ->. rewrite String.eqb_refl in B. discriminate.
      * rewrite IH. cbn [In]. split; [tauto|]. intros [[->|I] K]; [|auto]. rewrite HQ in K. injection K as -> _. rewrite String.eqb_refl in A. discriminate.
    + rewrite (IH out E p). cbn [In]. split; [tauto|]. intros [[->|I] K]; [|auto]. rewrite HQ in K. discriminate.
    + rewrite (IH out E p). cbn [In]. split; [tauto|]. intros [[->|I] K]; [|auto]. rewrite HQ in K. discriminate.
    + rewrite (IH out E p). cbn [In]. split; [tauto|]. intros [[->|I] K]; [|auto]. rewrite HQ in K. discriminate.
Qed.

Section P.
  Variable F : Type.
  Variable zero : F.
  Variable of_int : Z -> res F.
  Variable of_repr : string -> F.
  Variable div : F -> F -> F.
  Variable beta : Q -> F.
  Variable sci : Z -> string.
  Variable dims : fstruct -> res (Z * Z).

  (** an array of the size of the lists *)
  Definition fits (p : params) (g : grid F) : Prop :=
    dimP F g = List.length (lst_P p) /\ dimT F g = List.length (lst_T p) /\ dimX F g = List.length (lst_X p).
  (** the values of one field along the beads *)
  Definition along (p : params) (g : grid F) (j k : nat) (key : string) : list F :=
    map (fun i => cell F g i j k key) (seq 0 (List.length (lst_P p))).

  Lemma tau_ok p num T : (forall P, In P (lst_P p) -> of_int P = Ok (num P)) ->
    tau_of F of_int div beta p T = Ok (map (fun P => div (beta T) (num P)) (lst_P p)).
  Proof.
    intros N. unfold tau_of, generate_tau_values. apply map_res_total. intros P I. rewrite (N P I). reflexivity.
  Qed.
  Lemma column_ok p g j k key : fits p g -> j < List.length (lst_T p) -> k < List.length (lst_X p) -> column F g j k key = Ok (along p g j k key).
  Proof.
    intros (A & B & C) L1 L2. unfold column, along. rewrite A, B, C. apply Nat.ltb_lt in L1, L2. rewrite L1, L2. reflexivity.
  Qed.
  Lemma along_length p g j k key : List.length (along p g j k key) = List.length (lst_P p).
  Proof. unfold along. rewrite map_length, seq_length. reflexivity. Qed.

  (** the curves of one temperature, one for each number of samples *)
  Fixpoint curves (p : params) (g : grid F) (key : string) (T : Q) (j : nat) (tau : list F) (k : nat) (xs : list Z) : list (mark F) :=
    match xs with
    | [] => []
    | X :: xs' => Curve F tau (along p g j k key) (along p g j k (key ++ " error")) Circle (key ++ " (T=" ++ fmt2 T ++ "K) (X=" ++ sci X ++ ")")
                  :: curves p g key T j tau (S k) xs'
    end.
  Lemma curves_length p g key T j tau xs : forall k, List.length (curves p g key T j tau k xs) = List.length xs.
  Proof. induction xs as [|X xs IH]; intros k; [reflexivity|]. cbn. rewrite IH. reflexivity. Qed.
  Lemma curves_nth p g key T j tau xs : forall k i X, nth_error xs i = Some X ->
    nth_error (curves p g key T j tau k xs) i = Some (Curve F tau (along p g j (k + i) key) (along p g j (k + i) (key ++ " error")) Circle (key ++ " (T=" ++ fmt2 T ++ "K) (X=" ++ sci X ++ ")")).
  Proof.
    induction xs as [|Y xs IH]; intros k [|i] X E; try discriminate.
    - injection E as ->. cbn [curves nth_error]. rewrite Nat.add_0_r. reflexivity.
    - cbn [curves nth_error]. rewrite (IH (S k) i X E). replace (k + S i) with (S k + i) by lia. reflexivity.
  Qed.
  Lemma x_loop p g key T tau : increasing_Z (lst_X p) -> fits p g -> List.length tau = List.length (lst_P p) -> 0 < List.length (lst_T p) ->
    forall xs pre ms, lst_X p = pre ++ xs ->
    for_res (x_turn F sci Wrapped p g key T 0 tau) xs ms = Ok (ms ++ curves p g key T 0 tau (List.length pre) xs).
  Proof.
    intros IX FI LT L0. induction xs as [|X xs IH]; intros pre ms E.
    - cbn. rewrite app_nil_r. reflexivity.
    - cbn [for_res]. assert (NX : nth_error (lst_X p) (List.length pre) = Some X) by (rewrite E, nth_error_app2, Nat.sub_diag by lia; reflexivity).
      unfold x_turn at 1. rewrite (index_Z _ _ _ IX NX). cbn [bind].
      assert (LX : List.length pre < List.length (lst_X p)) by (apply nth_error_Some; congruence).
      rewrite !(column_ok p) by assumption. cbn [bind]. unfold errorbar. cbn [ax_item bind]. rewrite LT, along_length, Nat.eqb_refl. cbn [bind].
      rewrite (IH (pre ++ [X])) by (rewrite <- app_assoc; exact E). rewrite app_length, Nat.add_1_r, <- app_assoc. reflexivity.
  Qed.
  Lemma x_bare p g key T j tau : fits p g -> j < List.length (lst_T p) -> increasing_Z (lst_X p) -> lst_X p <> [] ->
    forall ms, for_res (x_turn F sci Bare p g key T j tau) (lst_X p) ms = Raise TypeError.
  Proof.
    intros FI L IX NX ms. destruct (lst_X p) as [|X xs] eqn:E; [congruence|]. cbn [for_res]. unfold x_turn at 1.
    rewrite <- E in IX. assert (N : nth_error (lst_X p) 0 = Some X) by (rewrite E; reflexivity).
    rewrite (index_Z _ _ _ IX N). cbn [bind]. rewrite !(column_ok p) by (try assumption; rewrite E; cbn; lia). reflexivity.
  Qed.
  Lemma self_index p T : increasing_Q (lst_T p) -> forall j, nth_error (lst_T p) j = Some T -> index Qeq_bool T (lst_T p) = Ok j.
  Proof. intros IT j N. exact (index_Q _ _ _ _ IT N (Qeq_refl T)). Qed.
  Lemma single_increasing (T : Q) : increasing_Q [T].
  Proof. intros i j x y A B L. destruct i as [|[|i]], j as [|[|j]]; cbn in A, B; try discriminate; lia. Qed.

  Lemma test_loop_one tau p g key T taul : increasing_Z (lst_X p) -> fits p g -> lst_T p = [T] -> tau T = Ok taul -> List.length taul = List.length (lst_P p) ->
    for_res (test_turn F sci tau p g key) (lst_T p) [] = Ok (curves p g key T 0 taul 0 (lst_X p)).
  Proof.
    intros IX FI ET TA LT. pose proof (single_increasing T) as S1. rewrite <- ET in S1. assert (N0 : nth_error (lst_T p) 0 = Some T) by (rewrite ET; reflexivity).
    rewrite ET. cbn [for_res]. unfold test_turn. rewrite (self_index p T S1 0 N0). cbn [bind]. rewrite TA. cbn [bind].
    unfold axes_for. rewrite ET. cbn [List.length Nat.eqb].
    rewrite (x_loop p g key T taul IX FI LT) with (pre := []) by (try reflexivity; rewrite ET; cbn; lia). reflexivity.
  Qed.
  Lemma many_bare p : 2 <= List.length (lst_T p) -> axes_for p = Bare.
  Proof. intros L. unfold axes_for. destruct (lst_T p) as [|a [|b l]]; cbn in L; [lia|lia|]. reflexivity. Qed.

  Lemma orig_level (percent : bool) (orig : list (string * json)) T y : 
    (exists kvs v, dget String.eqb orig (fmt2 T) = Some (JObj kvs) /\ dget String.eqb kvs "Z_coupled" = Some v /\ (if percent then y = zero else as_number F of_int of_repr v = Ok y)) ->
    true_answer F zero of_int of_repr percent orig T = Ok y.
  Proof. intros (kvs & v & A & B & C). unfold true_answer. rewrite A. cbn [sub]. rewrite B. cbn [bind]. destruct percent; [rewrite C; reflexivity|exact C]. Qed.

  (** the mark of the most sampled results of a set with one temperature *)
  Definition pair_curve (labels : list (Z * string)) (m : nat) (f : fstruct) (p : params) (g : grid F) (tau : list F) (X : Z) (t : string) : mark F :=
    Curve F tau (along p g 0 (List.length (lst_X p) - 1) "Z") (along p g 0 (List.length (lst_X p) - 1) "Z error") (marker_of m)
      ("Z (id\_rho=" ++ dec (id_rho f) ++ ") (X=" ++ sci X ++ ") " ++ t).
  Lemma last_item_app l X : last_item (l ++ [X]) = Ok X.
  Proof. unfold last_item. rewrite rev_app_distr. reflexivity. Qed.
  Lemma pair_turn_ok percent m f p orig g num T X xs t y ms : increasing_Z (lst_X p) -> fits p g -> increasing_Q (lst_T p) -> nth_error (lst_T p) 0 = Some T -> lst_X p = xs ++ [X] ->
    (forall P, In P (lst_P p) -> of_int P = Ok (num P)) -> dget Z.eqb labels_pair (id_rho f) = Some t -> true_answer F zero of_int of_repr percent orig T = Ok y ->
    pair_turn F zero of_int of_repr div beta sci percent m (f, p, orig, g) ms T =
      Ok (ms ++ [pair_curve labels_pair m f p g (map (fun P => div (beta T) (num P)) (lst_P p)) X t; Level F y orig_text]).
  Proof.
    intros IX FI IT NT EX N LB TA. unfold pair_turn. rewrite (self_index p T IT 0 NT). cbn [bind]. rewrite (tau_ok p num T N). cbn [bind].
    rewrite EX at 1. rewrite last_item_app. cbn [bind].
    assert (NX : nth_error (lst_X p) (List.length (lst_X p) - 1) = Some X).
    { rewrite EX, app_length. cbn [List.length]. rewrite nth_error_app2 by lia. replace (_ - _) with 0 by lia. reflexivity. }
    rewrite (index_Z _ _ _ IX NX). cbn [bind].
    assert (L1 : 0 < List.length (lst_T p)) by (apply nth_error_Some; congruence). assert (L2 : List.length (lst_X p) - 1 < List.length (lst_X p)) by (apply nth_error_Some; congruence).
    rewrite !(column_ok p) by assumption. cbn [bind]. unfold label_of. rewrite LB. cbn [bind]. unfold errorbar. cbn [ax_item bind].
    rewrite map_length, along_length, Nat.eqb_refl. cbn [bind]. rewrite TA. cbn [bind]. rewrite <- app_assoc. reflexivity.
  Qed.
  Lemma pair_turn_second percent m f p orig g num T X xs t j ms : increasing_Z (lst_X p) -> fits p g -> increasing_Q (lst_T p) -> nth_error (lst_T p) (S j) = Some T -> lst_X p = xs ++ [X] ->
    (forall P, In P (lst_P p) -> of_int P = Ok (num P)) -> dget Z.eqb labels_pair (id_rho f) = Some t ->
    pair_turn F zero of_int of_repr div beta sci percent m (f, p, orig, g) ms T = Raise IndexError.
  Proof.
    intros IX FI IT NT EX N LB. unfold pair_turn. rewrite (self_index p T IT (S j) NT). cbn [bind]. rewrite (tau_ok p num T N). cbn [bind].
    rewrite EX at 1. rewrite last_item_app. cbn [bind].
    assert (NX : nth_error (lst_X p) (List.length (lst_X p) - 1) = Some X).
    { rewrite EX, app_length. cbn [List.length]. rewrite nth_error_app2 by lia. replace (_ - _) with 0 by lia. reflexivity. }
    rewrite (index_Z _ _ _ IX NX). cbn [bind].
    assert (L1 : S j < List.length (lst_T p)) by (apply nth_error_Some; congruence). assert (L2 : List.length (lst_X p) - 1 < List.length (lst_X p)) by (apply nth_error_Some; congruence).
    rewrite !(column_ok p) by assumption. cbn [bind]. unfold label_of. rewrite LB. reflexivity.
  Qed.
  Lemma last_one_map {A B} (h : A -> B) l : last_one (map h l) = map h (last_one l).
  Proof. unfold last_one. rewrite <- map_rev. destruct (rev l); reflexivity. Qed.
  Lemma last_one_app {A} (l : list A) x : last_one (l ++ [x]) = [x].
  Proof. unfold last_one. rewrite rev_app_distr. reflexivity. Qed.
  Lemma along_last p g j k key ps P : lst_P p = ps ++ [P] -> last_one (along p g j k key) = [cell F g (List.length (lst_P p) - 1) j k key].
  Proof.
    intros E. unfold along. rewrite last_one_map, E, app_length. cbn [List.length]. rewrite Nat.add_1_r, seq_S, last_one_app. cbn [map Nat.add]. do 2 f_equal. lia.
  Qed.
  Lemma inset_curve_ok m f p orig g num X xs ps P t ms : fits p g -> lst_T p <> [] -> lst_X p = X :: xs -> lst_P p = ps ++ [P] ->
    (forall P, In P (lst_P p) -> of_int P = Ok (num P)) -> dget Z.eqb labels_pair (Z.of_nat m) = Some t ->
    inset_curve F of_int div beta sci m (f, p, orig, g) ms =
      Ok (ms ++ [Curve F [div (beta (300 # 1)) (num P)] [cell F g (List.length (lst_P p) - 1) 0 (List.length (lst_X p) - 1) "Z"] [cell F g (List.length (lst_P p) - 1) 0 (List.length (lst_X p) - 1) "Z error"]
                   (marker_of m) ("Z (id\_rho=" ++ dec (id_rho f) ++ ") (X=" ++ sci X ++ ") " ++ t)]).
  Proof.
    intros FI NT EX EP N LB. unfold inset_curve. rewrite (tau_ok p num _ N). cbn [bind].
    assert (L1 : 0 < List.length (lst_T p)) by (destruct (lst_T p); [congruence|cbn; lia]). assert (L2 : 0 < List.length (lst_X p)) by (rewrite EX; cbn; lia).
    destruct (FI) as (_ & _ & DX). rewrite DX. pose proof L2 as L2'. apply Nat.ltb_lt in L2'. rewrite L2'.
    rewrite !(column_ok p) by (assumption || lia). cbn [bind]. rewrite EX at 1. cbn [bind]. unfold label_of. rewrite LB. cbn [bind]. unfold errorbar. cbn [ax_item bind].
    rewrite !(along_last p g 0 _ _ ps P EP). rewrite last_one_map. rewrite EP at 1. rewrite last_one_app. cbn [map List.length Nat.eqb].
    rewrite EP at 1. rewrite last_one_app. reflexivity.
  Qed.
End P.
