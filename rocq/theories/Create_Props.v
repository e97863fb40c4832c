(** C09, C10, C11: generated models and artificial coupled models. *)
From Coq Require Import Ring_theory Ring InitialRing.
From Verif Require Import Common Common_Proofs Arr_Model Arr_Proofs ModelIO_Model ModelIO_Spec ModelIO_Proofs ModelIO2_Proofs SameModel_Model ModelIO_Props Create_Model Create_Spec Create_Proofs Create2_Proofs Create3_Proofs Create4_Proofs.
Local Open Scope nat_scope.

(** ** C09 *)
Section C09.
  Context {V : Type}.
  Variables (zero : V) (add : V -> V -> V) (opp : V -> V) (div : V -> V -> V).
  Variable isz : V -> bool.
  Variable vint : V -> res Z.
  Variable close : V -> V -> bool.
  (** what the random generator returns, for the number of the call, the range
      and the index; what np.linspace returns *)
  Variable rnd : nat -> V -> V -> list nat -> V.
  Variable linspace : V -> V -> nat -> nat -> V.
  Hypothesis add_zero_r : forall x, add x zero = x.
  Hypothesis add_zero_l : forall x, add zero x = x.
  Hypothesis close_refl : forall x, close x x = true.
  Notation generate := (generate_model zero add opp div vint close rnd linspace).

  (** Whatever the generator returns, a coupled model of the requested size is
      produced: valid, symmetric, the frequencies those of np.linspace, energies
      and linear couplings single draws from the lower triangle, everything of
      higher order zero. *)
  Theorem C09_coupled (p : gen_params V) A N : g_diagonal p = false -> g_states p = Z.of_nat A -> g_modes p = Z.of_nat N ->
    let w i := linspace (fst (g_freq p)) (snd (g_freq p)) N i in
    exists d, generate p = Ok d /\ dict_ok d /\ known_keys d /\ (forall m, exists v, has d (KV m) v) /\
      valid vint Coupled (Z.of_nat A) (Z.of_nat N) d /\ surface_symmetric d /\ mode_symmetric d /\
      (forall i, i < N -> reads zero d w_ [i] (w i)) /\
      (forall a b, a < A -> b < A -> reads zero d E_ [a; b] (rnd 0 (fst (g_energy p)) (snd (g_energy p)) [Nat.max a b; Nat.min a b])) /\
      (forall i a b, i < N -> a < A -> b < A ->
         reads zero d G1_ [i; a; b] (rnd (1 + i) (opp (div (g_linear p) (w i))) (div (g_linear p) (w i)) [Nat.max a b; Nat.min a b])) /\
      (forall m n idx, In m [G2_; G3_; G4_] -> mode_axes m = Some n -> inb (repeat N n ++ [A; A]) idx -> reads zero d m idx zero).
  Proof. eapply generated_coupled; eauto. Qed.

  (** The diagonal model contains the diagonals of the same draws. *)
  Theorem C09_diagonal (p : gen_params V) A N : g_diagonal p = true -> g_states p = Z.of_nat A -> g_modes p = Z.of_nat N ->
    let w i := linspace (fst (g_freq p)) (snd (g_freq p)) N i in
    exists d, generate p = Ok d /\ dict_ok d /\ known_keys d /\ (forall m, exists v, has d (KV m) v) /\
      valid vint Diagonal (Z.of_nat A) (Z.of_nat N) d /\
      (forall i, i < N -> reads zero d w_ [i] (w i)) /\
      (forall a, a < A -> reads zero d E_ [a] (rnd 0 (fst (g_energy p)) (snd (g_energy p)) [a; a])) /\
      (forall i a, i < N -> a < A ->
         reads zero d G1_ [i; a] (rnd (1 + i) (opp (div (g_linear p) (w i))) (div (g_linear p) (w i)) [a; a])) /\
      (forall m n idx, In m [G2_; G3_; G4_] -> mode_axes m = Some n -> inb (repeat N n ++ [A]) idx -> reads zero d m idx zero).
  Proof. eapply generated_diagonal; eauto. Qed.

  (** A bound on the drawn numbers is a bound on the numbers of the model. *)
  Theorem C09_ranges (p : gen_params V) A N d (within : V -> V -> V -> Prop) : g_diagonal p = false -> g_states p = Z.of_nat A -> g_modes p = Z.of_nat N ->
    (forall call lo hi idx, within lo hi (rnd call lo hi idx)) -> generate p = Ok d ->
    (forall a b x, a < A -> b < A -> reads zero d E_ [a; b] x -> within (fst (g_energy p)) (snd (g_energy p)) x) /\
    (forall i a b x y, i < N -> a < A -> b < A -> reads zero d w_ [i] y -> reads zero d G1_ [i; a; b] x -> within (opp (div (g_linear p) y)) (div (g_linear p) y) x).
  Proof.
    intros HD HA HN Hw E. destruct (C09_coupled p A N HD HA HN) as (d0 & E0 & D & _ & _ & _ & _ & _ & Rw & RE & RG & _).
    assert (d0 = d) as -> by congruence. split.
    - intros a b x Ha Hb R. rewrite (reads_fun zero d _ _ _ _ D R (RE a b Ha Hb)). apply Hw.
    - intros i a b x y Hi Ha Hb Ry R. rewrite (reads_fun zero d _ _ _ _ D R (RG i a b Hi Ha Hb)), (reads_fun zero d _ _ _ _ D Ry (Rw i Hi)). apply Hw.
  Qed.

  (** The helper for quadratic terms: symmetric in surfaces and modes; of the two
      draws for a pair of modes the one made later remains. *)
  Theorem C09_quadratic first (G2 disp : arr V) A N : shape G2 = [N; N; A; A] -> wf_arr G2 ->
    exists G, generate_quadratic_terms zero add opp rnd first G2 (Z.of_nat A) disp N = Ok G /\ shape G = [N; N; A; A] /\ wf_arr G /\
      (forall i j a b, aget G [i; j; a; b] = aget G [i; j; b; a] /\ aget G [i; j; a; b] = aget G [j; i; a; b]) /\
      forall i j a b s, j <= i -> b <= a -> i < N -> a < A -> aget disp [i; j] = Some s ->
        aget G [i; j; a; b] = Some (rnd (first + (i * N + j)) (opp s) s [a; b]).
  Proof.
    intros Hs W. destruct (quadratic_ok zero add opp div isz vint rnd linspace add_zero_r add_zero_l first G2 disp A N Hs W) as (G & E & S & WG & R).
    exists G. split; auto. split; auto. split; auto. split.
    - intros i j a b. destruct (inb_dec [N; N; A; A] [i; j; a; b]) as [Hi|Hi].
      + inversion Hi as [|? ? ? ? Hi1 Hi']; subst. inversion Hi' as [|? ? ? ? Hj1 Hi'']; subst. inversion Hi'' as [|? ? ? ? Ha1 Hi3]; subst. inversion Hi3 as [|? ? ? ? Hb1 _]; subst.
        rewrite !R by auto. rewrite (Nat.max_comm b a), (Nat.min_comm b a), (Nat.max_comm j i), (Nat.min_comm j i). auto.
      + rewrite !aget_none; rewrite ?S; auto; intros H; apply Hi; repeat match goal with H : inb _ _ |- _ => inversion H; subst; clear H | H : Forall2 lt _ (_ :: _) |- _ => inversion H; subst; clear H end; unfold inb; repeat (constructor; auto).
    - intros i j a b s Hij Hab Hi Ha Hd. rewrite R by lia. rewrite !Nat.max_l, !Nat.min_r by lia. unfold getd. rewrite Hd. auto.
  Qed.

  Theorem C09_negative (p : gen_params V) : (g_states p < 0 \/ g_modes p < 0)%Z -> generate p = Raise ValueError.
  Proof. apply generated_negative. Qed.
End C09.
Print Assumptions C09_coupled.
Print Assumptions C09_diagonal.
Print Assumptions C09_ranges.
Print Assumptions C09_quadratic.
Print Assumptions C09_negative.

Definition ex_gen (diagonal : bool) : gen_params Z := {| g_freq := (2, 4)%Z; g_energy := (0, 9)%Z; g_linear := 8%Z; g_diagonal := diagonal; g_states := 2%Z; g_modes := 2%Z |}.
Definition ex_rnd (call : nat) (lo hi : Z) (idx : list nat) : Z := (lo + Z.of_nat (call + nth 0 idx 0 * 2 + nth 1 idx 0)%nat)%Z.
Definition ex_lin (lo hi : Z) (n i : nat) : Z := (lo + Z.of_nat i * (hi - lo) / Z.of_nat (n - 1))%Z.
Example C09_example :
  (do d <- generate_model 0%Z Z.add Z.opp Z.div z_int Z.eqb ex_rnd ex_lin (ex_gen false); Ok (mget d (KV E_), mget d (KV w_), mget d (KV G1_)))
  = Ok (Some (PArr (mkArr [2; 2] [0; 2; 2; 3]%Z)), Some (PArr (mkArr [2] [2; 4]%Z)), Some (PArr (mkArr [2; 2; 2] [-3; -1; -1; 0; 0; 2; 2; 3]%Z)))
  /\ (do d <- generate_model 0%Z Z.add Z.opp Z.div z_int Z.eqb ex_rnd ex_lin (ex_gen true); Ok (mget d (KV E_), mget d (KV w_), mget d (KV G1_)))
  = Ok (Some (PArr (mkArr [2] [0; 3]%Z)), Some (PArr (mkArr [2] [2; 4]%Z)), Some (PArr (mkArr [2; 2] [-3; 0; 0; 3]%Z)))
  /\ (forall call lo hi idx, (lo <= ex_rnd call lo hi idx)%Z)
  /\ (do g <- generate_quadratic_terms 0%Z Z.add Z.opp ex_rnd 0 (afull [2; 2; 1; 1] 0%Z) 1%Z (afull [2; 2] 5%Z) 2; Ok (data g)) = Ok [-5; -3; -3; -2]%Z.
Proof. split; [vm_compute; reflexivity|]. split; [vm_compute; reflexivity|]. split; [intros; unfold ex_rnd; lia|]. vm_compute. reflexivity. Qed.

(** ** C10 and C11 *)
Section C10.
  Context {V : Type}.
  Variables (zero one : V) (add mul sub : V -> V -> V) (opp : V -> V).
  Variable isz : V -> bool.
  Variable vint : V -> res Z.
  Variable close : V -> V -> bool.
  Hypothesis RT : ring_theory zero one add mul sub opp eq.
  Hypothesis close_refl : forall x, close x x = true.
  Hypothesis isz_zero : forall x, isz x = true <-> x = zero.
  Notation create_fake := (create_fake zero one add mul isz vint close).
  Notation create_fake_trace := (create_fake_trace zero one add mul isz vint close).
  Notation load := (load_new zero vint Coupled).
  Notation bsum := (bsum zero add).

  (** where the matrix U comes from: created, read from the file of an earlier
      run, or given and then required to satisfy U U^T = 1 *)
  Definition matrix_source (gen : Z -> res (arr V)) (f : fs V) (ortho : string) (A : nat) (M : nat -> nat -> V) (u : matrix_arg V) (Ua : arr V) : Prop :=
    (u = MNone /\ gen (Z.of_nat A) = Ok Ua) \/ (u = MStr "re-use" /\ f ortho = Some (CNpy Ua)) \/
    (u = MArr Ua /\ row_orthonormal zero one add mul A M).
  (** the file holds a valid model, readable as [d] *)
  Definition model_in (f : fs V) (vib : string) (A N : nat) (d : mdict V) : Prop :=
    (forall o, f vib = Some (CJson o) -> NoDup (map fst o)) /\ load f vib = Ok d /\ valid vint Coupled (Z.of_nat A) (Z.of_nat N) d.

  (** A run on a symmetric model replaces the file by one that reads back as the
      model with X -> U X U^T for energies and couplings of every order, with the
      same frequencies and dimensions; the old contents are in the backup file,
      the matrix is stored, and no other file is touched. *)
  Theorem C10_run gen f vib orig ortho u d A N Ua M :
    vib <> orig -> vib <> ortho -> orig <> ortho ->
    model_in f vib A N d -> surface_close close d -> mode_close close d -> is_matrix A Ua M -> matrix_source gen f ortho A M u Ua ->
    exists f' d', create_fake gen f vib orig ortho u = (f', Ok tt) /\
      f' orig = f vib /\ f' ortho = Some (CNpy Ua) /\ (forall q, q <> vib -> q <> orig -> q <> ortho -> f' q = f q) /\
      model_in f' vib A N d' /\ conjugated zero add mul A N M d d'.
  Proof.
    intros N1 N2 N3 (HND & HL & Va) Hs Hm HU HS.
    destruct (fake_run zero one add mul sub opp isz vint close RT close_refl isz_zero gen f vib orig ortho u d A N Ua M) as (f' & d' & E & B & O & Q & L & D & K & V' & ND & C); auto.
    exists f', d'. unfold model_in. auto 10.
  Qed.

  (** consequences for the numbers; U^T U = 1 is needed for the trace and the
      inverse (the code checks U U^T = 1 only) *)
  Theorem C10_symmetric f vib A N M d d' f' : model_in f vib A N d -> model_in f' vib A N d' -> conjugated zero add mul A N M d d' ->
    (surface_symmetric d -> surface_symmetric d') /\ (mode_symmetric d -> mode_symmetric d').
  Proof.
    intros (HND & HL & Va) (HND' & HL' & Va') C. destruct (load_new_inv _ _ _ _ _ _ HND HL) as (D & _). destruct (load_new_inv _ _ _ _ _ _ HND' HL') as (D' & _).
    split; intros; [eapply (conjugated_symmetric zero one add mul sub opp vint RT A N M d d')|eapply (conjugated_modes zero add mul vint A N M d d')]; eauto.
  Qed.

  Theorem C10_trace f' vib A N M d d' m n pre X Y : model_in f' vib A N d' -> conjugated zero add mul A N M d d' ->
    row_orthonormal zero one add mul A (mtr M) -> In m surface_params -> mode_axes m = Some n -> inb (repeat N n) pre ->
    (forall j k, j < A -> k < A -> reads zero d m (pre ++ [j; k]) (X j k)) -> (forall j, j < A -> reads zero d' m (pre ++ [j; j]) (Y j)) ->
    bsum A Y = bsum A (fun j => X j j).
  Proof.
    intros (HND' & HL' & Va') C HO Hm Hn Hp HX HY. destruct (load_new_inv _ _ _ _ _ _ HND' HL') as (D' & _).
    eapply (conjugated_trace zero one add mul sub opp RT A N M d d'); eauto.
  Qed.

  Theorem C10_identity f vib A N M d d' : model_in f vib A N d -> conjugated zero add mul A N M d d' ->
    (forall i j, i < A -> j < A -> M i j = if i =? j then one else zero) ->
    forall m n idx x, In m surface_params -> mode_axes m = Some n -> inb (repeat N n ++ [A; A]) idx -> reads zero d m idx x -> reads zero d' m idx x.
  Proof.
    intros (HND & HL & Va) C HM. destruct (load_new_inv _ _ _ _ _ _ HND HL) as (D & _).
    eapply (conjugated_identity zero one add mul sub opp vint RT A N M d d'); eauto.
  Qed.

  (** A second run with the transposed matrix restores all numbers. *)
  Theorem C10_back gen f vib orig ortho d A N Ua Ub M :
    vib <> orig -> vib <> ortho -> orig <> ortho -> model_in f vib A N d -> surface_symmetric d -> mode_symmetric d ->
    is_matrix A Ua M -> is_matrix A Ub (mtr M) -> orthogonal zero one add mul A M ->
    exists f1 f2 d2, create_fake gen f vib orig ortho (MArr Ua) = (f1, Ok tt) /\ create_fake gen f1 vib orig ortho (MArr Ub) = (f2, Ok tt) /\
      load f2 vib = Ok d2 /\
      (forall v, has d2 (KV N_) v <-> has d (KV N_) v) /\ (forall v, has d2 (KV A_) v <-> has d (KV A_) v) /\
      (forall idx x, inb [N] idx -> (reads zero d2 w_ idx x <-> reads zero d w_ idx x)) /\
      (forall m n idx x, In m surface_params -> mode_axes m = Some n -> inb (repeat N n ++ [A; A]) idx -> reads zero d m idx x -> reads zero d2 m idx x).
  Proof. intros N1 N2 N3 (HND & HL & Va). intros. eapply run_and_back; eauto. Qed.

  (** A given matrix that is not orthonormal is rejected before any file is
      touched; so is a model that is not symmetric. *)
  Theorem C10_not_orthonormal gen f vib orig ortho d A N Ua M i j : model_in f vib A N d -> is_matrix A Ua M -> i < A -> j < A ->
    close (bsum A (fun k => mul (M i k) (M j k))) (if i =? j then one else zero) = false ->
    create_fake gen f vib orig ortho (MArr Ua) = (f, Raise AssertionError) /\ fst (create_fake_trace gen f vib orig ortho (MArr Ua)) = [].
  Proof. intros (HND & HL & Va). intros. eapply (not_orthonormal_rejected zero one add mul sub opp isz vint close RT gen f vib orig ortho d A N Ua M i j); eauto. Qed.
  Theorem C10_asymmetric gen f vib orig ortho u d A N : model_in f vib A N d -> ~ surface_close close d \/ ~ mode_close close d ->
    exists e, create_fake gen f vib orig ortho u = (f, Raise e) /\ fst (create_fake_trace gen f vib orig ortho u) = [].
  Proof. intros (HND & HL & Va). intros. eapply asymmetric_rejected; eauto. Qed.

  (** C11: at every moment of a run, however it ends, the contents are in the
      model file or in the backup; other files keep their contents. *)
  Theorem C11_recoverable gen f vib orig ortho u c s : vib <> orig -> orig <> ortho -> f vib = Some c ->
    In s (f :: fst (create_fake_trace gen f vib orig ortho u)) -> s vib = Some c \/ s orig = Some c.
  Proof. apply trace_recoverable. Qed.
  Theorem C11_other_files gen f vib orig ortho u s q : In s (f :: fst (create_fake_trace gen f vib orig ortho u)) ->
    q <> vib -> q <> orig -> q <> ortho -> s q = f q.
  Proof. intros [<-|H]; [auto|]. intros. eapply others_untouched; eauto. Qed.
  (** the last moment is the final state *)
  Theorem C11_final gen f vib orig ortho u f' r : create_fake gen f vib orig ortho u = (f', r) ->
    In f' (f :: fst (create_fake_trace gen f vib orig ortho u)) /\ snd (create_fake_trace gen f vib orig ortho u) = r.
  Proof.
    unfold Create_Model.create_fake. destruct (Create_Model.create_fake_trace _ _ _ _ _ _ _ _ _ _ _ _ _) as [l r0]. intros [= <- <-]. split; auto. cbn [fst].
    destruct (exists_last (l := f :: l)) as (l' & x & E); [discriminate|].
    replace (last l f) with x. { rewrite E. apply in_or_app. right. left. auto. }
    destruct l as [|y l]. { destruct l' as [|? []]; inv E; auto. }
    destruct l' as [|f0 l']; [discriminate|]. cbn in E. injection E as <- E. rewrite E. rewrite last_last. auto.
  Qed.
  (** two successful runs: the backup holds what the first one produced *)
  Theorem C11_second_run gen1 gen2 f f1 f2 vib orig ortho u1 u2 : vib <> orig -> orig <> ortho ->
    create_fake gen1 f vib orig ortho u1 = (f1, Ok tt) -> create_fake gen2 f1 vib orig ortho u2 = (f2, Ok tt) ->
    f1 orig = f vib /\ f2 orig = f1 vib.
  Proof.
    intros N1 N3 E1 E2. destruct (success_backs_up _ _ _ _ _ _ _ _ _ _ _ _ _ _ N1 N3 E1) as [H1 _]. destruct (success_backs_up _ _ _ _ _ _ _ _ _ _ _ _ _ _ N1 N3 E2) as [H2 _]. auto.
  Qed.
End C10.
Print Assumptions C10_run.
Print Assumptions C10_symmetric.
Print Assumptions C10_trace.
Print Assumptions C10_identity.
Print Assumptions C10_back.
Print Assumptions C10_not_orthonormal.
Print Assumptions C10_asymmetric.
Print Assumptions C11_recoverable.
Print Assumptions C11_other_files.
Print Assumptions C11_final.
Print Assumptions C11_second_run.

(** ** Concrete runs over the integers *)
Definition z_fake := create_fake 0%Z 1%Z Z.add Z.mul z_isz z_int Z.eqb.
Definition z_trace := create_fake_trace 0%Z 1%Z Z.add Z.mul z_isz z_int Z.eqb.
Definition no_gen : Z -> res (arr Z) := fun _ => Raise OtherException.
Definition row (l : list Z) : nest Z := NList (map NNum l).
Definition z_file (n : Z) (e : list (list Z)) : content Z := CJson [("number of modes", JInt 1); ("number of surfaces", JInt n); ("frequencies", JList [NNum 7%Z]); ("energies", JList (map row e))].
Definition z_cycle : arr Z := mkArr [3; 3] [0; 1; 0; 0; 0; 1; 1; 0; 0]%Z.
Definition z_start : fs Z := fs_write no_files "v" (z_file 3 [[1; 0; 0]; [0; 2; 5]; [0; 5; 3]]%Z).

Lemma matrix_symmetric (a : arr Z) n : shape a = [n; n] -> (forall i j, i < n -> j < n -> aget a [i; j] = aget a [j; i]) ->
  forall pre i j, aget a (pre ++ [i; j]) = aget a (pre ++ [j; i]).
Proof.
  intros Hs H pre i j. destruct pre as [|p pre].
  - cbn. destruct (lt_dec i n); [destruct (lt_dec j n); [auto|]|]; rewrite !aget_none; auto; rewrite Hs; intros Hi; inversion Hi as [|? ? ? ? ? Hi']; subst; inversion Hi'; subst; lia.
  - rewrite !aget_none; auto; rewrite Hs; intros Hi; apply (Forall2_length lt) in Hi; cbn in Hi; rewrite app_length in Hi; cbn in Hi; lia.
Qed.

(** the hypotheses of the theorems above are met *)
Definition mat (a : arr Z) (i j : nat) : Z := getd 0%Z a [i; j].
Definition z_model (e : arr Z) : mdict Z := [(KV N_, PInt 1); (KV A_, PInt 3); (KV w_, PArr (mkArr [1] [7%Z])); (KV E_, PArr e)].
Lemma z_model_in f e : f "v" = Some (z_file 3 e) -> forall a, np_array (NList (map row e)) = Ok a -> shape a = [3; 3] ->
  load_new 0%Z z_int Coupled f "v" = Ok (z_model a) -> model_in 0%Z z_int f "v" 3 1 (z_model a).
Proof.
  intros Hf a Ha Hs HL. split; [|split; [exact HL|]].
  - rewrite Hf. intros o [= <-]. cbn. repeat constructor; cbn; intuition discriminate.
  - split. { split; eexists; (split; [unfold has, z_model; cbn [In]; eauto|constructor]). }
    intros m v s Hm E. unfold has, z_model in Hm. cbn [In] in Hm. repeat destruct Hm as [Hm|Hm]; inv Hm; inv E; eexists; (split; [reflexivity|]); rewrite ?Hs; reflexivity.
Qed.
Definition z_E : arr Z := mkArr [3; 3] [1; 0; 0; 0; 2; 5; 0; 5; 3]%Z.
Ltac three := repeat match goal with H : ?i < 3 |- _ => destruct i as [|[|[|i]]]; [clear H|clear H|clear H|exfalso; lia] end.
Example C10_example :
  ring_theory 0%Z 1%Z Z.add Z.mul Z.sub Z.opp eq
  /\ (forall x, z_isz x = true <-> x = 0%Z)
  /\ model_in 0%Z z_int z_start "v" 3 1 (z_model z_E) /\ surface_symmetric (z_model z_E) /\ mode_symmetric (z_model z_E)
  /\ is_matrix 3 z_cycle (mat z_cycle) /\ orthogonal 0%Z 1%Z Z.add Z.mul 3 (mat z_cycle)
  /\ load_new 0%Z z_int Coupled (fst (z_fake no_gen z_start "v" "o" "u" (MArr z_cycle))) "v" = Ok (z_model (mkArr [3; 3] [2; 5; 0; 5; 3; 0; 0; 0; 1]%Z)).
Proof.
  split; [apply Zth|]. split; [intros x; apply Z.eqb_eq|]. split; [|split; [|split; [|split; [|split]]]].
  - apply (z_model_in z_start [[1; 0; 0]; [0; 2; 5]; [0; 5; 3]]%Z); auto.
  - intros m a pre i j Hm Ha. unfold has, z_model in Ha. cbn [In] in Ha. repeat destruct Ha as [Ha|Ha]; inv Ha; [cbn in Hm; intuition discriminate|].
    apply (matrix_symmetric _ 3); auto. intros i0 j0 Hi Hj. three; reflexivity.
  - split; intros a i j; intros; exfalso; unfold has, z_model in H; cbn [In] in H; repeat destruct H as [H|H]; inv H.
  - split; [reflexivity|]. split; [reflexivity|]. intros i j Hi Hj. three; reflexivity.
  - split; intros i j Hi Hj; three; reflexivity.
  - vm_compute. reflexivity.
Qed.

(** a matrix stored in the file of the transformation is applied without being
    checked: here twice the identity *)
Theorem C10_reuse_unchecked_refuted :
  exists f (Ua : arr Z), f "u" = Some (CNpy Ua) /\ ~ row_orthonormal 0%Z 1%Z Z.add Z.mul 3 (mat Ua) /\ is_matrix 3 Ua (mat Ua) /\
    model_in 0%Z z_int f "v" 3 1 (z_model z_E) /\
    snd (z_fake no_gen f "v" "o" "u" (MStr "re-use")) = Ok tt /\
    load_new 0%Z z_int Coupled (fst (z_fake no_gen f "v" "o" "u" (MStr "re-use"))) "v" = Ok (z_model (mkArr [3; 3] [4; 0; 0; 0; 8; 20; 0; 20; 12]%Z)) /\
    snd (z_fake no_gen f "v" "o" "u" (MArr Ua)) = Raise AssertionError.
Proof.
  exists (fs_write z_start "u" (CNpy (mkArr [3; 3] [2; 0; 0; 0; 2; 0; 0; 0; 2]%Z))), (mkArr [3; 3] [2; 0; 0; 0; 2; 0; 0; 0; 2]%Z).
  split; [reflexivity|]. split. { intros H. specialize (H 0 0 ltac:(lia) ltac:(lia)). vm_compute in H. discriminate. }
  split. { split; [reflexivity|]. split; [reflexivity|]. intros i j Hi Hj. three; reflexivity. }
  split. { apply (z_model_in _ [[1; 0; 0]; [0; 2; 5]; [0; 5; 3]]%Z); auto. }
  split; [vm_compute; reflexivity|]. split; vm_compute; reflexivity.
Qed.
Print Assumptions C10_reuse_unchecked_refuted.

(** "the original can always be recovered" is false over several runs: after two
    successful runs no file holds the original contents *)
Theorem C11_two_runs_refuted :
  exists f (u : arr Z), let f1 := fst (z_fake no_gen f "v" "o" "u" (MArr u)) in let f2 := fst (z_fake no_gen f1 "v" "o" "u" (MArr u)) in
    snd (z_fake no_gen f "v" "o" "u" (MArr u)) = Ok tt /\ snd (z_fake no_gen f1 "v" "o" "u" (MArr u)) = Ok tt /\
    (exists c, f "v" = Some c) /\ forall q, f2 q <> f "v".
Proof.
  exists z_start, z_cycle. cbv zeta. split; [vm_compute; reflexivity|]. split; [vm_compute; reflexivity|].
  split; [eexists; reflexivity|]. intros q. pose proof (C11_other_files 0%Z 1%Z Z.add Z.mul z_isz z_int Z.eqb no_gen) as HO.
  destruct (String.eqb_spec q "v") as [->|Nv]; [vm_compute; discriminate|]. destruct (String.eqb_spec q "o") as [->|No]; [vm_compute; discriminate|].
  destruct (String.eqb_spec q "u") as [->|Nu]; [vm_compute; discriminate|].
  set (f1 := fst (z_fake no_gen z_start "v" "o" "u" (MArr z_cycle))). set (f2 := fst (z_fake no_gen f1 "v" "o" "u" (MArr z_cycle))).
  destruct (C11_final 0%Z 1%Z Z.add Z.mul z_isz z_int Z.eqb no_gen z_start "v" "o" "u" (MArr z_cycle) f1 _ (surjective_pairing _)) as [I1 _].
  destruct (C11_final 0%Z 1%Z Z.add Z.mul z_isz z_int Z.eqb no_gen f1 "v" "o" "u" (MArr z_cycle) f2 _ (surjective_pairing _)) as [I2 _].
  rewrite (HO _ _ _ _ _ _ _ I2 Nv No Nu), (HO _ _ _ _ _ _ _ I1 Nv No Nu). unfold z_start, fs_write. destruct (String.eqb_spec q "v"); [contradiction|]. discriminate.
Qed.
Print Assumptions C11_two_runs_refuted.

Example C11_example :
  length (fst (z_trace no_gen z_start "v" "o" "u" (MArr z_cycle))) = 6
  /\ map (fun s : fs Z => match s "v" with Some (CJson _) => true | _ => false end) (fst (z_trace no_gen z_start "v" "o" "u" (MArr z_cycle))) = [true; true; false; true; true; true]
  /\ (fst (z_fake no_gen z_start "v" "o" "u" (MArr z_cycle))) "o" = z_start "v"
  /\ z_fake no_gen z_start "v" "o" "u" (MArr (afull [3; 3] 1%Z)) = (z_start, Raise AssertionError)
  /\ snd (z_fake no_gen z_start "v" "o" "u" (MStr "other")) = Raise OtherException
  /\ snd (z_fake no_gen (fs_write no_files "v" (z_file 3 [[1; 0; 0]; [0; 2; 5]; [0; 6; 3]]%Z)) "v" "o" "u" (MArr z_cycle)) = Raise AssertionError.
Proof. split; [vm_compute; reflexivity|]. split; [vm_compute; reflexivity|]. split; [vm_compute; reflexivity|]. split; [reflexivity|]. split; vm_compute; reflexivity. Qed.
