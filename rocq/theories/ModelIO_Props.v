(** Properties C01-C05, C07, C08, C12 and C52 (model files). *)
From Verif Require Import Common Common_Proofs Arr_Model Arr_Proofs ModelIO_Model ModelIO_Spec ModelIO_Proofs ModelIO2_Proofs.

(** ---- concrete values used by the examples (integers as numbers) ---- *)
Definition z_isz (x : Z) : bool := Z.eqb x 0.
Definition z_int (x : Z) : res Z := Ok x.
Definition z_of (x : Z) : Z := x.
Definition no_files : fs Z := fun _ => None.

(** two surfaces, one mode; the linear couplings are all zero *)
Definition ex_model : mdict Z :=
  [(KV N_, PInt 1); (KV A_, PInt 2);
   (KV E_, PArr (mkArr [2; 2] [5; 1; 1; 7]%Z)); (KV w_, PArr (mkArr [1] [3]%Z));
   (KV G1_, PArr (mkArr [1; 2; 2] [0; 0; 0; 0]%Z)); (KV G2_, PArr (mkArr [1; 1; 2; 2] [0; 4; 4; 0]%Z))].

(** the surface diagonal of a model of the same size *)
Definition ex_diag : mdict Z :=
  [(KV N_, PInt 1); (KV A_, PInt 2);
   (KV E_, PArr (mkArr [2] [5; 7]%Z)); (KV w_, PArr (mkArr [1] [3]%Z));
   (KV G2_, PArr (mkArr [1; 1; 2] [0; 9]%Z))].

Ltac in_cases :=
  repeat match goal with
         | H : has _ _ _ |- _ => unfold has in H; simpl in H
         | H : _ \/ _ |- _ => destruct H as [H|H]
         | H : (_, _) = (_, _) |- _ => injection H as <- <-
         | H : False |- _ => destruct H
         | H : PArr _ = PArr _ |- _ => injection H as <-
         end.
Ltac nodup := repeat constructor; simpl; intuition discriminate.

Lemma ex_model_ok : dict_ok ex_model /\ known_keys ex_model /\ serialisable ex_model /\ valid z_int Coupled 2 1 ex_model.
Proof.
  split; [split; [nodup|]|split; [|split]].
  - intros k a H. in_cases; try discriminate; reflexivity.
  - intros k v H. in_cases; eauto.
  - intros k v H. in_cases; discriminate.
  - split.
    + split; eexists; (split; [unfold has; simpl; auto|constructor]).
    + intros m v s H Hs. unfold has in H; simpl in H.
      repeat (destruct H as [H|H]; [injection H as <- <-; simpl in Hs; try discriminate; injection Hs as <-; eauto; fail|]). easy.
Qed.

Lemma ex_diag_ok : dict_ok ex_diag /\ known_keys ex_diag /\ serialisable ex_diag /\ valid z_int Diagonal 2 1 ex_diag.
Proof.
  split; [split; [nodup|]|split; [|split]].
  - intros k a H. in_cases; try discriminate; reflexivity.
  - intros k v H. in_cases; eauto.
  - intros k v H. in_cases; discriminate.
  - split.
    + split; eexists; (split; [unfold has; simpl; auto|constructor]).
    + intros m v s H Hs. unfold has in H; simpl in H.
      repeat (destruct H as [H|H]; [injection H as <- <-; simpl in Hs; try discriminate; injection Hs as <-; eauto; fail|]). easy.
Qed.

(** ==== C01 ==== *)
Theorem C01_coupled_save_load :
  forall (V : Type) (zero : V) (isz : V -> bool) (vint : V -> res Z)
         (f : fs V) (path : string) (d : mdict V) (A N : Z),
    dict_ok d -> known_keys d -> serialisable d -> valid vint Coupled A N d ->
    (0 <= A)%Z \/ (exists a, has d (KV E_) (PArr a) /\ some_nonzero isz a) ->
    exists f' d',
      save isz vint Coupled f path d = (f', Ok tt) /\
      (forall q, q <> path -> f' q = f q) /\
      load_new zero vint Coupled f' path = Ok d' /\
      dict_ok d' /\ valid vint Coupled A N d' /\ known_keys d' /\
      roundtrip zero isz A d d'.
Proof. intros V zero isz vint f path d A N. exact (@save_load_coupled V zero isz vint (fun _ => zero) f path d A N). Qed.
Print Assumptions C01_coupled_save_load.

Theorem C01_same_numbers :
  forall (V : Type) (zero : V) (isz : V -> bool) (vint : V -> res Z) (A N : Z) (d d' : mdict V),
    isz zero = true -> dict_ok d -> dict_ok d' -> valid vint Coupled A N d ->
    roundtrip zero isz A d d' -> same_numbers zero isz d d'.
Proof. intros V zero isz vint A N d d'. exact (@roundtrip_same_numbers V zero isz vint (fun _ => zero) A N d d'). Qed.
Print Assumptions C01_same_numbers.

Example C01_example :
  (dict_ok ex_model /\ known_keys ex_model /\ serialisable ex_model /\ valid z_int Coupled 2 1 ex_model) /\
  (do d' <- load_new 0%Z z_int Coupled (fst (save z_isz z_int Coupled no_files "m" ex_model)) "m"; Ok (map fst d'))
  = Ok [KV N_; KV A_; KV E_; KV w_; KV G2_].
Proof. split; [exact ex_model_ok|reflexivity]. Qed.

(** ==== C02 ==== *)
Theorem C02_diagonal_save_load :
  forall (V : Type) (zero : V) (isz : V -> bool) (vint : V -> res Z)
         (f : fs V) (path : string) (d : mdict V) (A N : Z),
    dict_ok d -> known_keys d -> serialisable d -> valid vint Diagonal A N d ->
    exists f',
      save isz vint Diagonal f path d = (f', Ok tt) /\
      (forall q, q <> path -> f' q = f q) /\
      ((exists a, has d (KV E_) (PArr a) /\ some_nonzero isz a) ->
         exists d', load_new zero vint Diagonal f' path = Ok d' /\
           dict_ok d' /\ valid vint Diagonal A N d' /\ known_keys d' /\
           forall m v, has d' (KV m) v <-> (has d (KV m) v /\ forall a, v = PArr a -> some_nonzero isz a)) /\
      ((forall a, has d (KV E_) (PArr a) -> ~ some_nonzero isz a) ->
         load_new zero vint Diagonal f' path = Raise (if (0 <=? A)%Z then AssertionError else ValueError)).
Proof. intros V zero isz vint f path d A N. exact (@save_load_diagonal V zero isz vint (fun _ => zero) f path d A N). Qed.
Print Assumptions C02_diagonal_save_load.

Example C02_example :
  (dict_ok ex_diag /\ known_keys ex_diag /\ serialisable ex_diag /\ valid z_int Diagonal 2 1 ex_diag) /\
  load_new 0%Z z_int Diagonal (fst (save z_isz z_int Diagonal no_files "m" ex_diag)) "m" = Ok ex_diag.
Proof. split; [exact ex_diag_ok|reflexivity]. Qed.

(** a diagonal model with zero energies is saved but cannot be loaded *)
Theorem C02_zero_energy_refuted :
  exists d : mdict Z,
    snd (save z_isz z_int Diagonal no_files "m" d) = Ok tt /\
    load_new 0%Z z_int Diagonal (fst (save z_isz z_int Diagonal no_files "m" d)) "m" = Raise AssertionError.
Proof.
  exists [(KV N_, PInt 1); (KV A_, PInt 2); (KV E_, PArr (mkArr [2] [0; 0]%Z)); (KV w_, PArr (mkArr [1] [3]%Z))].
  split; reflexivity.
Qed.

(** ==== C03 ==== *)
Theorem C03_load_into_no_stale :
  forall (V : Type) (zero : V) (isz : V -> bool) (vint : V -> res Z) (v_of_int : Z -> V)
         (f f' : fs V) (path : string) (k : kind) (d d0 : mdict V) (A N : Z),
    dict_ok d -> known_keys d -> serialisable d -> valid vint k A N d ->
    dict_ok d0 -> valid vint k A N d0 ->
    save isz vint k f path d = (f', Ok tt) ->
    exists d', load_into zero vint v_of_int k f' path d0 = (d', Ok tt) /\
      dict_ok d' /\ valid vint k A N d' /\ map fst d' = map fst d0 /\
      (forall key v, (forall a, v <> PArr a) -> (has d' key v <-> has d0 key v)) /\
      (forall key a0, has d0 key (PArr a0) -> exists a', has d' key (PArr a') /\ shape a' = shape a0) /\
      (forall m a', has d' (KV m) (PArr a') ->
         forall a, has d (KV m) (PArr a) -> some_nonzero isz a -> a' = a) /\
      (forall key a', has d' key (PArr a') ->
         (forall m a, key = KV m -> has d (KV m) (PArr a) -> ~ some_nonzero isz a) ->
         forall x, In x (data a') -> x = zero).
Proof. intros V zero isz vint vi f f' path k d d0 A N. exact (@load_into_saved V zero isz vint vi f f' path k d d0 A N). Qed.
Print Assumptions C03_load_into_no_stale.

(** arrays full of nines are overwritten or cleared *)
Example C03_example :
  let d0 := [(KV N_, PInt 1); (KV A_, PInt 2); (KV G1_, PArr (mkArr [1; 2; 2] [9; 9; 9; 9]%Z));
             (KV E_, PArr (mkArr [2; 2] [9; 9; 9; 9]%Z))] in
  valid z_int Coupled 2 1 d0 /\ dict_ok d0 /\
  load_into 0%Z z_int z_of Coupled (fst (save z_isz z_int Coupled no_files "m" ex_model)) "m" d0
  = ([(KV N_, PInt 1); (KV A_, PInt 2); (KV G1_, PArr (mkArr [1; 2; 2] [0; 0; 0; 0]%Z));
      (KV E_, PArr (mkArr [2; 2] [5; 1; 1; 7]%Z))], Ok tt).
Proof.
  split; [|split; [split; [nodup|]|reflexivity]].
  - split.
    + split; eexists; (split; [unfold has; simpl; auto|constructor]).
    + intros m v s H Hs. unfold has in H; simpl in H.
      repeat (destruct H as [H|H]; [injection H as <- <-; simpl in Hs; try discriminate; injection Hs as <-; eauto; fail|]). easy.
  - intros k a H. in_cases; try discriminate; reflexivity.
Qed.

(** ==== C04 ==== *)
(** the in-place load accepts a file for other dimensions exactly when numpy can
    broadcast; then slices of length one are repeated silently *)
Theorem C04_load_into_accepts_iff :
  forall (V : Type) (zero : V) (isz : V -> bool) (vint : V -> res Z) (v_of_int : Z -> V)
         (f f' : fs V) (path : string) (k : kind) (d d0 : mdict V) (A N A0 N0 : Z),
    dict_ok d -> known_keys d -> serialisable d -> valid vint k A N d ->
    dict_ok d0 -> valid vint k A0 N0 d0 ->
    save isz vint k f path d = (f', Ok tt) ->
    ((exists d', load_into zero vint v_of_int k f' path d0 = (d', Ok tt)) <->
     (forall m a a0, has d (KV m) (PArr a) -> some_nonzero isz a -> has d0 (KV m) (PArr a0) ->
        Forall2 (fun y x => y = x \/ y = 1) (shape a) (shape a0))).
Proof. intros V zero isz vint vi f f' path k d d0 A N A0 N0. exact (@load_into_accepts V zero isz vint vi f f' path k d d0 A N A0 N0). Qed.
Print Assumptions C04_load_into_accepts_iff.

Theorem C04_broadcast_contents :
  forall (V : Type) (zero : V) (isz : V -> bool) (vint : V -> res Z) (v_of_int : Z -> V)
         (f f' : fs V) (path : string) (k : kind) (d d0 d' : mdict V) (A N A0 N0 : Z) (m : vmk) (a a0 : arr V),
    dict_ok d -> known_keys d -> serialisable d -> valid vint k A N d ->
    dict_ok d0 -> valid vint k A0 N0 d0 ->
    save isz vint k f path d = (f', Ok tt) ->
    load_into zero vint v_of_int k f' path d0 = (d', Ok tt) ->
    has d (KV m) (PArr a) -> some_nonzero isz a -> has d0 (KV m) (PArr a0) ->
    Forall2 (fun y x => y = x \/ y = 1) (shape a) (shape a0) /\
    exists a', has d' (KV m) (PArr a') /\ shape a' = shape a0 /\
      forall idx, inb (shape a0) idx -> aget a' idx = aget a (bc_index (shape a) idx).
Proof.
  intros V zero isz vint vi f f' path k d d0 d' A N A0 N0 m a a0.
  exact (@load_into_other_dims V zero isz vint vi f f' path k d d0 d' A N A0 N0 m a a0).
Qed.
Print Assumptions C04_broadcast_contents.

(** a file with one mode is accepted by arrays for three modes *)
Definition ex_three_modes : mdict Z :=
  [(KV N_, PInt 3); (KV A_, PInt 2); (KV w_, PArr (mkArr [3] [9; 9; 9]%Z)); (KV E_, PArr (mkArr [2; 2] [9; 9; 9; 9]%Z))].

Theorem C04_other_dimensions_refuted :
  dict_ok ex_model /\ valid z_int Coupled 2 1 ex_model /\ dict_ok ex_three_modes /\ valid z_int Coupled 2 3 ex_three_modes /\
  load_into 0%Z z_int z_of Coupled (fst (save z_isz z_int Coupled no_files "m" ex_model)) "m" ex_three_modes
  = ([(KV N_, PInt 3); (KV A_, PInt 2); (KV w_, PArr (mkArr [3] [3; 3; 3]%Z)); (KV E_, PArr (mkArr [2; 2] [5; 1; 1; 7]%Z))], Ok tt).
Proof.
  pose proof ex_model_ok as (H1 & _ & _ & H2). split; [exact H1|]. split; [exact H2|].
  split; [split; [nodup|intros k a H; in_cases; try discriminate; reflexivity]|]. split; [|reflexivity].
  split.
  - split; eexists; (split; [unfold has; simpl; auto|constructor]).
  - intros m v s H Hs. unfold has in H; simpl in H.
    repeat (destruct H as [H|H]; [injection H as <- <-; simpl in Hs; try discriminate; injection Hs as <-; eauto; fail|]). easy.
Qed.

(** ==== C05 ==== *)
Theorem C05_save_rejects_invalid :
  forall (V : Type) (isz : V -> bool) (vint : V -> res Z) (f : fs V) (path : string) (k : kind) (d : mdict V),
    dict_ok d -> (forall A N, ~ valid vint k A N d) ->
    exists e, save isz vint k f path d = (f, Raise e).
Proof. intros V isz vint f path k d. exact (@save_invalid V isz vint f path k d). Qed.
Print Assumptions C05_save_rejects_invalid.

Theorem C05_saved_is_valid :
  forall (V : Type) (isz : V -> bool) (vint : V -> res Z) (f f' : fs V) (path : string) (k : kind) (d : mdict V),
    dict_ok d -> save isz vint k f path d = (f', Ok tt) -> exists A N, valid vint k A N d.
Proof. intros V isz vint f f' path k d. exact (@save_ok_valid V isz vint f f' path k d). Qed.
Print Assumptions C05_saved_is_valid.

Theorem C05_verify_iff :
  forall (V : Type) (vint : V -> res Z) (k : kind) (d : mdict V),
    NoDup (map fst d) -> (verify vint k d = Ok tt <-> exists A N, valid vint k A N d).
Proof. intros V vint k d. exact (@verify_spec V vint k d). Qed.
Print Assumptions C05_verify_iff.

(** linear couplings with a wrong axis: rejected, file untouched *)
Example C05_example :
  let bad := [(KV N_, PInt 1); (KV A_, PInt 2); (KV G1_, PArr (mkArr [1; 2] [1; 1]%Z))] in
  dict_ok bad /\ (forall A N, ~ valid z_int Coupled A N bad) /\
  save z_isz z_int Coupled no_files "m" bad = (no_files, Raise AssertionError).
Proof.
  split; [split; [nodup|intros k a H; in_cases; try discriminate; reflexivity]|]. split; [|reflexivity].
  intros A N [_ H]. destruct (H G1_ _ _ (or_intror (or_intror (or_introl eq_refl))) eq_refl) as (a & Ha & Hs).
  injection Ha as <-. discriminate Hs.
Qed.

(** ==== C07 ==== *)
Theorem C07_remove_coupling :
  forall (V : Type) (zero : V) (isz : V -> bool) (vint : V -> res Z)
         (f : fs V) (src dst : string) (d : mdict V) (A N : Z),
    (forall o, f src = Some (CJson o) -> NoDup (map fst o)) ->
    load_new zero vint Coupled f src = Ok d -> valid vint Coupled A N d ->
    exists f' dd,
      remove_coupling zero isz vint f src dst = (f', Ok tt) /\
      (forall q, q <> dst -> f' q = f q) /\
      valid vint Diagonal A N dd /\ surface_diagonal d dd /\
      save isz vint Diagonal f dst dd = (f', Ok tt).
Proof. intros V zero isz vint f src dst d A N. exact (@remove_coupling_correct V zero isz vint (fun _ => zero) f src dst d A N). Qed.
Print Assumptions C07_remove_coupling.

Theorem C07_create_basic_diagonal :
  forall (V : Type) (zero : V) (isz : V -> bool) (vint : V -> res Z)
         (f : fs V) (vib har rho : string) (d : mdict V) (A N : Z),
    (forall o, f vib = Some (CJson o) -> NoDup (map fst o)) -> har <> rho ->
    load_new zero vint Coupled f vib = Ok d -> valid vint Coupled A N d ->
    exists f' f'' dd, create_basic_diagonal_model zero isz vint f vib har rho = (f'', Ok tt) /\
      surface_diagonal d dd /\ valid vint Diagonal A N dd /\
      save isz vint Diagonal f har dd = (f', Ok tt) /\
      f'' har = f' har /\ f'' rho = f' har /\ (forall q, q <> har -> q <> rho -> f'' q = f q).
Proof. intros V zero isz vint f vib har rho d A N. exact (@create_basic_diagonal_correct V zero isz vint (fun _ => zero) f vib har rho d A N). Qed.
Print Assumptions C07_create_basic_diagonal.

Example C07_example :
  let f := fst (save z_isz z_int Coupled no_files "vib" ex_model) in
  let f' := fst (create_basic_diagonal_model 0%Z z_isz z_int f "vib" "har" "rho") in
  (do d <- load_new 0%Z z_int Coupled f "vib"; verify z_int Coupled d) = Ok tt /\
  load_new 0%Z z_int Diagonal f' "rho"
  = Ok [(KV N_, PInt 1); (KV A_, PInt 2); (KV E_, PArr (mkArr [2] [5; 7]%Z)); (KV w_, PArr (mkArr [1] [3]%Z))].
Proof. split; reflexivity. Qed.

(** ==== C08 ==== *)
Theorem C08_fill_offdiagonal :
  forall (V : Type) (zero : V) (vint : V -> res Z) (d : mdict V) (A N : Z),
    dict_ok d -> known_keys d -> valid vint Coupled A N d -> has d (KV A_) (PInt A) ->
    exists d', fill_offdiagonal zero vint d = Ok d' /\ decoupled zero d d' /\ dict_ok d' /\ valid vint Coupled A N d'.
Proof. intros V zero vint d A N. exact (@fill_offdiagonal_correct V zero (fun _ => true) vint d A N). Qed.
Print Assumptions C08_fill_offdiagonal.

Theorem C08_fill_offdiagonal_twice :
  forall (V : Type) (zero : V) (vint : V -> res Z) (d d' : mdict V) (A N : Z),
    dict_ok d -> known_keys d -> valid vint Coupled A N d -> has d (KV A_) (PInt A) ->
    fill_offdiagonal zero vint d = Ok d' -> fill_offdiagonal zero vint d' = Ok d'.
Proof. intros V zero vint d d' A N. exact (@fill_offdiagonal_idempotent V zero (fun _ => true) vint d d' A N). Qed.
Print Assumptions C08_fill_offdiagonal_twice.

Example C08_example :
  has ex_model (KV A_) (PInt 2) /\
  (do d <- fill_offdiagonal 0%Z z_int ex_model; mitem d (KV E_)) = Ok (PArr (mkArr [2; 2] [5; 0; 0; 7]%Z)) /\
  (do d <- fill_offdiagonal 0%Z z_int ex_model; mitem d (KV G2_)) = Ok (PArr (mkArr [1; 1; 2; 2] [0; 0; 0; 0]%Z)).
Proof. split; [unfold has; simpl; auto|split; reflexivity]. Qed.

(** ==== C12 ==== *)
Theorem C12_key_round_trip :
  forall (V : Type) (d : mdict V),
    NoDup (map fst d) -> known_keys d -> string_to_enum (enum_to_string d) = Ok d.
Proof. intros V d. exact (@key_conversion_roundtrip V d). Qed.
Print Assumptions C12_key_round_trip.

Theorem C12_text_keys :
  forall (V : Type) (d : mdict V),
    NoDup (map fst d) -> known_keys d ->
    forall k v, has (enum_to_string d) k v <-> exists m, k = KS (vmk_value m) /\ has d (KV m) v.
Proof. intros V d. exact (@enum_to_string_spec V d). Qed.
Print Assumptions C12_text_keys.

Theorem C12_text_distinct : forall m n, vmk_value m = vmk_value n -> m = n.
Proof. exact vmk_value_inj. Qed.
Print Assumptions C12_text_distinct.

Theorem C12_unknown_key_rejected :
  forall (V : Type) (zero : V) (vint : V -> res Z) (v_of_int : Z -> V) (f : fs V) (path : string) (k : kind) o s j,
    f path = Some (CJson o) -> In (s, j) o -> (forall m, s <> vmk_value m) ->
    load_new zero vint k f path = Raise ValueError /\
    (forall d, verify vint k d = Ok tt -> load_into zero vint v_of_int k f path d = (d, Raise ValueError)).
Proof. intros V zero vint vi f path k o s j. exact (@load_unknown_key V zero vint vi f path k o s j). Qed.
Print Assumptions C12_unknown_key_rejected.

Example C12_example :
  string_to_enum (enum_to_string ex_model) = Ok ex_model /\
  load_new 0%Z z_int Coupled (fun _ => Some (CJson [("comment", JOther)])) "m" = Raise ValueError.
Proof. split; reflexivity. Qed.

(** ==== C52 ==== *)
(** an additional text key is written to disk but makes the file unloadable *)
Theorem C52_extra_key_unloadable :
  forall (V : Type) (zero : V) (isz : V -> bool) (vint : V -> res Z)
         (f f' : fs V) (path : string) (k : kind) (d : mdict V) (s : string) (v : pval V),
    dict_ok d -> has d (KS s) v -> (forall m, s <> vmk_value m) ->
    (forall a, v = PArr a -> some_nonzero isz a) ->
    save isz vint k f path d = (f', Ok tt) ->
    load_new zero vint k f' path = Raise ValueError.
Proof. intros V zero isz vint f f' path k d s v. first [exact (@save_extra_key_unloadable V zero isz vint (fun _ => zero) f f' path k d s v) | exact (@save_extra_key_unloadable V zero isz vint f f' path k d s v)]. Qed.
Print Assumptions C52_extra_key_unloadable.

(** an entry json.dumps cannot write destroys the previous file *)
Theorem C52_unserialisable_truncates :
  forall (V : Type) (isz : V -> bool) (vint : V -> res Z) (f : fs V) (path : string) (k : kind) (d : mdict V) (s : string),
    dict_ok d -> verify vint k d = Ok tt -> has d (KS s) PBad -> (forall m, s <> vmk_value m) ->
    exists f', save isz vint k f path d = (f', Raise TypeError) /\ f' path = Some CText.
Proof. intros V isz vint f path k d s. exact (@save_unserialisable V isz vint f path k d s). Qed.
Print Assumptions C52_unserialisable_truncates.

Example C52_example :
  let d := (KS "note", @PJson Z) :: ex_model in
  snd (save z_isz z_int Coupled no_files "m" d) = Ok tt /\
  load_new 0%Z z_int Coupled (fst (save z_isz z_int Coupled no_files "m" d)) "m" = Raise ValueError /\
  snd (save z_isz z_int Coupled no_files "m" ((KS "note", @PBad Z) :: ex_model)) = Raise TypeError.
Proof. repeat split; reflexivity. Qed.
