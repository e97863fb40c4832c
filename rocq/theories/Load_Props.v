(** Theorems about loading the model files into the sampling program
    (pimc.py:92-324, 480-492, 633-692; vibronic_model_io.py:480-514). *)
From Coq Require Import Reals Lra.
From Verif Require Import Common Common_Proofs Arr_Model Arr_Proofs ModelIO_Model ModelIO_Spec ModelIO_Proofs Pimc_Model Pimc_Spec Pimc_Props Point_Model Load_Model Load_Spec Load_Proofs.

(** ==== C77: the sampling program works on the numbers of the files ==== *)

(** the dimensions are those the file states, whichever way the path is given *)
Theorem C77_dimensions (V : Type) (vint : V -> res Z) k A N (f : fs V) path o other :
  f path = Some (CJson o) -> model_file vint k A N o ->
  extract_dimensions vint f (Some path) other = Ok (A, N) /\ extract_dimensions vint f None (Some path) = Ok (A, N).
Proof. intros F M. cbn. rewrite (dims_ok _ _ _ _ _ _ _ F M). auto. Qed.
Print Assumptions C77_dimensions.

(** no path, no file, no JSON, an unknown key, a missing number of modes or surfaces, a list in their place *)
Theorem C77_dimensions_rejected (V : Type) (vint : V -> res Z) (f : fs V) path :
  extract_dimensions vint f None None = Raise AssertionError /\
  (f path = None -> extract_dimensions vint f (Some path) None = Raise AssertionError) /\
  (f path = Some CText -> extract_dimensions vint f (Some path) None = Raise ValueError) /\
  (forall o, f path = Some (CJson o) ->
     (forall s j, In (s, j) o -> (forall m, s <> vmk_value m) -> extract_dimensions vint f (Some path) None = Raise ValueError) /\
     (NoDup (map fst o) -> (forall s j, In (s, j) o -> exists m, s = vmk_value m) ->
        (~ In "number of modes"%string (map fst o) -> extract_dimensions vint f (Some path) None = Raise KeyError) /\
        (forall j, In ("number of modes"%string, j) o ->
           (forall l, j = JList l -> extract_dimensions vint f (Some path) None = Raise TypeError) /\
           (forall n, json_integer vint j n -> ~ In "number of surfaces"%string (map fst o) -> extract_dimensions vint f (Some path) None = Raise KeyError)))).
Proof.
  split; [reflexivity|]. unfold extract_dimensions, dims_of_file. split; [intros ->; reflexivity|]. split; [intros F; rewrite F; cbn [passert bind]; unfold read_json; rewrite F; reflexivity|].
  intros o F. rewrite F. cbn [passert bind]. split.
  - intros s j I U. unfold read_json. rewrite F. cbn [bind]. erewrite string_to_enum_unknown; [reflexivity| |exact U].
    apply in_map_iff. exists (s, j). split; [reflexivity|exact I].
  - intros ND KK. destruct (known_list _ KK) as [l ->]. apply list_keys in ND.
    pose proof (read_keys _ _ _ F ND) as RK. destruct (read_json f path) as [oo|]; cbn [bind] in RK |- *; [|discriminate]. rewrite RK. cbn [bind].
    change "number of modes"%string with (vmk_value N_). change "number of surfaces"%string with (vmk_value A_). unfold jitem. split.
    + intros H. rewrite list_mem in H. apply (dget_kv_none l N_) in H. rewrite H. reflexivity.
    + intros j I. apply list_in in I. apply (dget_kv _ _ _ ND) in I. rewrite I. cbn [bind]. split; [intros ll ->; reflexivity|].
      intros n J H. apply json_int_spec in J. rewrite J. cbn [bind]. rewrite list_mem in H. apply (dget_kv_none l A_) in H. rewrite H. reflexivity.
Qed.
Print Assumptions C77_dimensions_rejected.

(** every array of the vibronic model holds the numbers of the file, zeros for a missing parameter *)
Theorem C77_vibronic_numbers (V : Type) (zero : V) (vint : V -> res Z) v_of_int A N (f : fs V) path o :
  f path = Some (CJson o) -> model_file vint Coupled A N o -> (0 <= A)%Z -> (0 <= N)%Z ->
  exists m, load_vib zero vint v_of_int f path A N = Ok m /\ p_states m = A /\ p_modes m = N /\
    forall mm a, In (mm, a) [(E_, p_energy m); (w_, p_omega m); (G1_, p_linear m); (G2_, p_quadratic m)] ->
      spec_shape Coupled A N mm = Some (map Z.of_nat (shape a)) /\
      forall idx, inb (shape a) idx -> exists x, aget a idx = Some x /\ file_number zero o mm idx x.
Proof.
  intros F M HA HN. destruct (load_vib_ok zero vint v_of_int A N f path o F M HA HN) as (m & L & (S1 & S2 & S3 & S4 & S5 & S6) & H1 & H2 & H3 & H4).
  exists m. split; [exact L|]. split; [exact S1|]. split; [exact S2|].
  intros mm a I. cbn [In] in I. destruct I as [I|[I|[I|[I|[]]]]]; injection I as <- <-; (split; [assumption|]); [apply H1|apply H2|apply H3|apply H4].
Qed.
Print Assumptions C77_vibronic_numbers.

(** a file for another number of modes (other than one) is rejected by the vibronic model ... *)
Theorem C77_vibronic_modes (V : Type) (zero : V) (vint : V -> res Z) v_of_int A N A0 N0 (f : fs V) path o :
  f path = Some (CJson o) -> model_file vint Coupled A N o -> (0 <= A0)%Z -> (0 <= N0)%Z ->
  (0 <= N)%Z -> N <> N0 -> N <> 1%Z -> In "frequencies"%string (map fst o) ->
  load_vib zero vint v_of_int f path A0 N0 = Raise ValueError.
Proof. apply load_vib_modes. Qed.
Print Assumptions C77_vibronic_modes.

(** ... but a file with one mode is stretched over all modes *)
Theorem C77_vibronic_one_mode_refuted : exists (f : fs Z) o m,
  f "m"%string = Some (CJson o) /\ model_file (fun z => Ok z) Coupled 1 1 o /\
  load_vib 0%Z (fun z => Ok z) (fun z => z) f "m" 1 3 = Ok m /\ p_modes m = 3%Z /\ p_omega m = mkArr [3] [7; 7; 7]%Z.
Proof.
  exists (fun p => Some (CJson [("number of modes", JInt 1); ("number of surfaces", JInt 1); ("energies", JList [NList [NNum 5%Z]]); ("frequencies", JList [NNum 7%Z])])).
  eexists _, _. split; [reflexivity|]. split; [split|split; [reflexivity|split; reflexivity]].
  - repeat constructor; cbn; intuition discriminate.
  - intros s j H. cbn in H. decompose [or] H; try contradiction; match goal with E : (_, _) = _ |- _ => injection E as <- <- end; [exists N_|exists A_|exists E_|exists w_]; reflexivity.
  - eexists. split; [cbn; auto|constructor].
  - eexists. split; [cbn; auto|constructor].
  - intros m j s H S. cbn in H. decompose [or] H; try contradiction; match goal with E : (_, _) = _ |- _ => injection E as E1 <- end; destruct m; try discriminate; injection S as <-; eexists _, _; (split; [reflexivity|split; reflexivity]).
Qed.
Print Assumptions C77_vibronic_one_mode_refuted.

(** the sampling model takes its number of surfaces from its own file *)
Theorem C77_sampling_numbers (V : Type) (zero : V) (vint : V -> res Z) v_of_int A N (f : fs V) path o :
  f path = Some (CJson o) -> model_file vint Diagonal A N o -> (0 <= A)%Z -> (0 <= N)%Z ->
  exists m, load_rho zero vint v_of_int f path N = Ok m /\ p_states m = A /\ p_modes m = N /\
    forall mm a, In (mm, a) [(E_, p_energy m); (w_, p_omega m); (G1_, p_linear m); (G2_, p_quadratic m)] ->
      spec_shape Diagonal A N mm = Some (map Z.of_nat (shape a)) /\
      forall idx, inb (shape a) idx -> exists x, aget a idx = Some x /\ file_number zero o mm idx x.
Proof.
  intros F M HA HN. destruct (load_rho_ok zero vint v_of_int A N f path o F M HA HN) as (m & L & (S1 & S2 & S3 & S4 & S5 & S6) & H1 & H2 & H3 & H4).
  exists m. split; [exact L|]. split; [exact S1|]. split; [exact S2|].
  intros mm a I. cbn [In] in I. destruct I as [I|[I|[I|[I|[]]]]]; injection I as <- <-; (split; [assumption|]); [apply H1|apply H2|apply H3|apply H4].
Qed.
Print Assumptions C77_sampling_numbers.

(** a sampling model with any other number of modes than the vibronic model is rejected *)
Theorem C77_sampling_modes (V : Type) (zero : V) (vint : V -> res Z) v_of_int A N N0 (f : fs V) path o :
  f path = Some (CJson o) -> model_file vint Diagonal A N o -> (0 <= A)%Z -> (0 <= N0)%Z -> N <> N0 ->
  load_rho zero vint v_of_int f path N0 = Raise AssertionError.
Proof. apply load_rho_modes. Qed.
Print Assumptions C77_sampling_modes.

(** an object without arrays can only be loaded from a file that has both the linear
    and the quadratic terms, although the code provides zeros for missing ones *)
Theorem C77_fresh_object (V : Type) (zero : V) (vint : V -> res Z) (f : fs V) path d :
  load_new zero vint Coupled f path = Ok d ->
  (forall e, load_fresh zero vint f path = Raise e -> e = KeyError) /\
  ((exists r, load_fresh zero vint f path = Ok r) <->
   forall m, In m [N_; A_; E_; w_; G1_; G2_] -> mget d (KV m) <> None) /\
  (forall n a e w l q, load_fresh zero vint f path = Ok (n, a, [e; w; l; q]) ->
     mget d (KV N_) = Some n /\ mget d (KV A_) = Some a /\ mget d (KV E_) = Some e /\ mget d (KV w_) = Some w /\ mget d (KV G1_) = Some l /\ mget d (KV G2_) = Some q).
Proof.
  intros L. unfold load_fresh. rewrite L. cbn [bind]. unfold mitem.
  destruct (mget d (KV E_)) as [e|] eqn:EE; cbn [bind].
  2:{ split; [congruence|]. split; [split; [intros [? ?]; discriminate|intros H; exfalso; apply (H E_); [cbn; auto 10|exact EE]]|discriminate]. }
  destruct (mget d (KV w_)) as [w|] eqn:EW; cbn [bind].
  2:{ split; [congruence|]. split; [split; [intros [? ?]; discriminate|intros H; exfalso; apply (H w_); [cbn; auto 10|exact EW]]|discriminate]. }
  destruct (mget d (KV G1_)) as [l|] eqn:EL; cbn [bind].
  2:{ split; [congruence|]. split; [split; [intros [? ?]; discriminate|intros H; exfalso; apply (H G1_); [cbn; auto 10|exact EL]]|discriminate]. }
  destruct (mget d (KV N_)) as [n|] eqn:EN; cbn [bind].
  2:{ split; [congruence|]. split; [split; [intros [? ?]; discriminate|intros H; exfalso; apply (H N_); [cbn; auto 10|exact EN]]|discriminate]. }
  destruct (mget d (KV A_)) as [a|] eqn:EA; cbn [bind].
  2:{ split; [congruence|]. split; [split; [intros [? ?]; discriminate|intros H; exfalso; apply (H A_); [cbn; auto 10|exact EA]]|discriminate]. }
  destruct (mget d (KV G2_)) as [q|] eqn:EQ; cbn [bind].
  2:{ split; [congruence|]. split; [split; [intros [? ?]; discriminate|intros H; exfalso; apply (H G2_); [cbn; auto 10|exact EQ]]|discriminate]. }
  split; [discriminate|]. split.
  - split; [|eauto]. intros _ m I. cbn in I. decompose [or] I; subst; try contradiction; congruence.
  - intros n' a' e' w' l' q' H. injection H as -> -> -> -> -> ->. auto 10.
Qed.
Print Assumptions C77_fresh_object.

(** ---- the whole way from the files to the prepared sampler ---- *)
Local Open Scope R_scope.

(** the files as written by the saving functions state the numbers of the saved models *)
Theorem C77_saved_files vint k A N (f f' : fs R) path d : dict_ok d -> known_keys d -> serialisable d -> valid vint k A N d ->
  save is_zero vint k f path d = (f', Ok tt) ->
  exists o, f' path = Some (CJson o) /\ model_file vint k A N o /\
    forall m idx x, In m [E_; w_; G1_; G2_; G3_; G4_] -> reads 0 d m idx x -> file_number 0 o m idx x.
Proof. apply saved_model_file. Qed.
Print Assumptions C77_saved_files.

(** the prepared sampler is the one of the numbers in the two files; the
    dimensions are read from the vibronic model's file *)
Theorem C77_initialize vint v_of_int (f : fs R) vib rho ov orho A N Ar P beta Ex wx lx qx Er wr lr :
  f vib = Some (CJson ov) -> model_file vint Coupled A N ov -> f rho = Some (CJson orho) -> model_file vint Diagonal Ar N orho ->
  (0 <= A)%Z -> (0 <= N)%Z -> (0 <= Ar)%Z -> (3 <= P)%nat ->
  table 0 ov E_ [Z.to_nat A; Z.to_nat A] Ex -> table 0 ov w_ [Z.to_nat N] wx ->
  table 0 ov G1_ [Z.to_nat N; Z.to_nat A; Z.to_nat A] lx -> table 0 ov G2_ [Z.to_nat N; Z.to_nat N; Z.to_nat A; Z.to_nat A] qx ->
  table 0 orho E_ [Z.to_nat Ar] Er -> table 0 orho w_ [Z.to_nat N] wr -> table 0 orho G1_ [Z.to_nat N; Z.to_nat Ar] lr ->
  let vm := {| v_states := Z.to_nat A; v_modes := Z.to_nat N; v_omega := fun n => wx [n]; v_energy := fun a b => Ex [a; b];
               v_linear := fun n a b => lx [n; a; b]; v_quadratic := fun n m a b => qx [n; m; a; b];
               v_delta_weight := fun _ => 0; v_state_shift := fun _ _ => 0 |} in
  let rm := {| r_states := Z.to_nat Ar; r_modes := Z.to_nat N; r_omega := fun n => wr [n]; r_energy := Some (fun a => Er [a]);
               r_linear := fun n a => lr [n; a]; r_delta_weight := fun _ => 0; r_state_weight := fun _ => 0; r_state_shift := fun _ _ => 0 |} in
  from_FileStructure vint f vib = Ok (A, N) /\
  exists u, initialize vint v_of_int f vib rho A N P beta = Ok (vm, rm, u) /\ prepare P beta vm rm = Ok u.
Proof.
  intros Fv Mv Fr Mr HA HN HAr HP T1 T2 T3 T4 T5 T6 T7 vm rm.
  split; [apply (dims_ok _ _ _ _ _ _ _ Fv Mv)|].
  destruct (to_vib_ok vint v_of_int A N f vib ov Ex wx lx qx Fv Mv HA HN T1 T2 T3 T4) as (mv & Lv & Ev).
  destruct (to_rho_ok vint v_of_int Ar N f rho orho Er wr lr Fr Mr HAr HN T5 T6 T7) as (mr & Lr & Er').
  fold vm in Ev. fold rm in Er'. unfold initialize. 
  assert (CM : exists C, circulant_matrix P = Ok C) by (unfold circulant_matrix; destruct (Nat.leb_spec 3 P); [eauto|lia]). destruct CM as [C CM]. rewrite CM. cbn [bind]. rewrite Lv. cbn [bind]. rewrite Lr. cbn [bind]. cbv zeta. rewrite Ev, Er'.
  destruct (prepare P beta vm rm) as [u|e] eqn:PR.
  - exists u. auto.
  - exfalso. unfold prepare in PR. rewrite CM in PR. cbn [bind] in PR. destruct (vib_precompute _ _ _). destruct (rho_precompute _ _ _). discriminate.
Qed.
Print Assumptions C77_initialize.

(** hence every sample evaluated after loading belongs to the model of the files *)
Theorem C77_values_from_files vint v_of_int (f : fs R) vib rho ov orho A N Ar P beta Ex wx lx qx Er wr lr eigh U draws :
  f vib = Some (CJson ov) -> model_file vint Coupled A N ov -> f rho = Some (CJson orho) -> model_file vint Diagonal Ar N orho ->
  (0 < A <= Ar)%Z -> (0 <= N)%Z -> (3 <= P)%nat -> 0 < beta ->
  table 0 ov E_ [Z.to_nat A; Z.to_nat A] Ex -> table 0 ov w_ [Z.to_nat N] wx ->
  table 0 ov G1_ [Z.to_nat N; Z.to_nat A; Z.to_nat A] lx -> table 0 ov G2_ [Z.to_nat N; Z.to_nat N; Z.to_nat A; Z.to_nat A] qx ->
  table 0 orho E_ [Z.to_nat Ar] Er -> table 0 orho w_ [Z.to_nat N] wr -> table 0 orho G1_ [Z.to_nat N; Z.to_nat Ar] lr ->
  (forall n, (n < Z.to_nat N)%nat -> 0 < wx [n]) -> (forall n, (n < Z.to_nat N)%nat -> 0 < wr [n]) ->
  (forall b c, (b < Z.to_nat A)%nat -> (c < Z.to_nat A)%nat -> Ex [b; c] = Ex [c; b] /\
     (forall n, (n < Z.to_nat N)%nat -> lx [n; b; c] = lx [n; c; b]) /\
     (forall n m, (n < Z.to_nat N)%nat -> (m < Z.to_nat N)%nat -> qx [n; m; b; c] = qx [n; m; c; b])) ->
  exists vm rm u, initialize vint v_of_int f vib rho A N P beta = Ok (vm, rm, u) /\
    (draws_ok eigh P vm rm U draws ->
     exists ys, blocks eigh u U draws (new_box P beta vm rm) omats0 = Ok ys /\
       Forall2 (fun dr y => let x := draw_path P rm U dr in let tau := beta / INR P in
         exists c g0, 0 < c /\
           fst y = c * rho_of (Z.to_nat A) P (Z.to_nat N) (fun n => wr [n]) (fun a => Er [a]) (fun n a => lr [n; a]) tau x /\
           is_g (Z.to_nat A) P (Z.to_nat N) (fun n => wx [n]) (fun a b => Ex [a; b]) (fun n a b => lx [n; a; b]) (fun n m a b => qx [n; m; a; b]) tau tau x g0 /\
           snd y = c * g0) draws ys).
Proof.
  intros Fv Mv Fr Mr HA HN HP HB T1 T2 T3 T4 T5 T6 T7 P1 P2 SY.
  destruct (C77_initialize vint v_of_int f vib rho ov orho A N Ar P beta Ex wx lx qx Er wr lr Fv Mv Fr Mr ltac:(lia) HN ltac:(lia) HP T1 T2 T3 T4 T5 T6 T7) as (_ & u & IN & PR).
  eexists _, _, u. split; [exact IN|]. intros DR.
  eapply (C23_block_compute_values eigh P beta _ _ (fun a => Er [a]) U draws u HP HB) in DR; [exact DR| | |exact PR].
  - repeat split; cbn [v_states v_modes v_omega v_energy v_linear v_quadratic r_modes r_omega r_energy]; try assumption; try lia; apply SY; assumption.
  - cbn. lia.
Qed.
Print Assumptions C77_values_from_files.

(** the quadratic terms of a sampling model are read and never used: sampling
    files that differ only in them give the same sampler *)
Theorem C77_sampling_quadratic_unused vint v_of_int (f g : fs R) vib rho o o' A N Ar P beta Er wr lr :
  (forall p, p <> rho -> f p = g p) -> vib <> rho -> f rho = Some (CJson o) -> g rho = Some (CJson o') ->
  model_file vint Diagonal Ar N o -> model_file vint Diagonal Ar N o' -> (0 <= Ar)%Z -> (0 <= N)%Z ->
  table 0 o E_ [Z.to_nat Ar] Er -> table 0 o w_ [Z.to_nat N] wr -> table 0 o G1_ [Z.to_nat N; Z.to_nat Ar] lr ->
  table 0 o' E_ [Z.to_nat Ar] Er -> table 0 o' w_ [Z.to_nat N] wr -> table 0 o' G1_ [Z.to_nat N; Z.to_nat Ar] lr ->
  initialize vint v_of_int f vib rho A N P beta = initialize vint v_of_int g vib rho A N P beta.
Proof.
  intros FG NE F G M M' HA HN T1 T2 T3 T1' T2' T3'. unfold initialize. destruct (circulant_matrix P); [cbn [bind]|reflexivity].
  assert (EV : load_vib 0 vint v_of_int f vib A N = load_vib 0 vint v_of_int g vib A N).
  { unfold load_vib, load_given, load_into, load_inplace_raw, read_json. rewrite (FG vib NE). reflexivity. }
  rewrite EV. destruct (load_vib 0 vint v_of_int g vib A N); [cbn [bind]|reflexivity].
  destruct (to_rho_ok vint v_of_int Ar N f rho o Er wr lr F M HA HN T1 T2 T3) as (m1 & L1 & E1).
  destruct (to_rho_ok vint v_of_int Ar N g rho o' Er wr lr G M' HA HN T1' T2' T3') as (m2 & L2 & E2).
  rewrite L1, L2. cbn [bind]. rewrite E1, E2. reflexivity.
Qed.
Print Assumptions C77_sampling_quadratic_unused.

(** ---- example: one mode, two surfaces; a sampling model with two surfaces ---- *)
Definition ex_vib : list (string * jval R) :=
  [("number of modes", JInt 1); ("number of surfaces", JInt 2); ("energies", JList [NList [NNum 0; NNum 1]; NList [NNum 1; NNum 0]]); ("frequencies", JList [NNum 2])].
Definition ex_rho : list (string * jval R) :=
  [("number of modes", JInt 1); ("number of surfaces", JInt 2); ("energies", JList [NNum 3; NNum 4]); ("frequencies", JList [NNum 2]); ("linear couplings", JList [NList [NNum 5; NNum 6]])].
Example C77_example :
  model_file (fun _ => Ok 0%Z) Coupled 2 1 ex_vib /\ model_file (fun _ => Ok 0%Z) Diagonal 2 1 ex_rho /\
  table 0 ex_rho E_ [2%nat] (fun idx => match idx with [0%nat] => 3 | [1%nat] => 4 | _ => 0 end) /\
  table 0 ex_vib G1_ [1; 2; 2]%nat (fun _ => 0).
Proof.
  split; [|split; [|split]].
  - split.
    + repeat constructor; cbn; intuition discriminate.
    + intros s j H. cbn in H. decompose [or] H; try contradiction; match goal with E : (_, _) = _ |- _ => injection E as <- <- end; [exists N_|exists A_|exists E_|exists w_]; reflexivity.
    + eexists. split; [cbn; auto|constructor].
    + eexists. split; [cbn; auto|constructor].
    + intros m j s H S. cbn in H. decompose [or] H; try contradiction; match goal with E : (_, _) = _ |- _ => injection E as E1 <- end; destruct m; try discriminate; injection S as <-; eexists _, _; (split; [reflexivity|split; reflexivity]).
  - split.
    + repeat constructor; cbn; intuition discriminate.
    + intros s j H. cbn in H. decompose [or] H; try contradiction; match goal with E : (_, _) = _ |- _ => injection E as <- <- end; [exists N_|exists A_|exists E_|exists w_|exists G1_]; reflexivity.
    + eexists. split; [cbn; auto|constructor].
    + eexists. split; [cbn; auto|constructor].
    + intros m j s H S. cbn in H. decompose [or] H; try contradiction; match goal with E : (_, _) = _ |- _ => injection E as E1 <- end; destruct m; try discriminate; injection S as <-; eexists _, _; (split; [reflexivity|split; reflexivity]).
  - intros idx. split.
    + intros I. inversion I as [|i n t u Hi Ht]; subst. inversion Ht; subst. destruct i as [|[|]]; [| |lia]; (eapply fn_there; [cbn; eauto 10|reflexivity|reflexivity]).
    + intros I. destruct idx as [|[|[|]] [|]]; try reflexivity; exfalso; apply I; repeat constructor; lia.
  - intros idx. split; [|reflexivity]. intros _. apply fn_missing. cbn. intuition discriminate.
Qed.
(** the other tables of these files, and the sampler made from them *)
Example C77_sampler_example beta :
  let Ex idx := match idx with [0%nat; 1%nat] | [1%nat; 0%nat] => 1 | _ => 0 end in
  let wx idx := match idx with [0%nat] => 2 | _ => 0 end in
  let lr idx := match idx with [0%nat; 0%nat] => 5 | [0%nat; 1%nat] => 6 | _ => 0 end in
  let f : fs R := fun p => if String.eqb p "vib" then Some (CJson ex_vib) else if String.eqb p "rho" then Some (CJson ex_rho) else None in
  table 0 ex_vib E_ [2; 2]%nat Ex /\ table 0 ex_vib w_ [1%nat] wx /\ table 0 ex_vib G2_ [1; 1; 2; 2]%nat (fun _ => 0) /\
  table 0 ex_rho w_ [1%nat] wx /\ table 0 ex_rho G1_ [1; 2]%nat lr /\
  exists vm rm u, initialize (fun _ => Ok 0%Z) IZR f "vib" "rho" 2 1 12 beta = Ok (vm, rm, u).
Proof.
  intros Ex wx lr f. destruct C77_example as (Mv & Mr & T1 & T2).
  assert (A1 : table 0 ex_vib E_ [2; 2]%nat Ex).
  { intros idx. split.
    - intros I. inversion I as [|i n t u Hi Ht]; subst. inversion Ht as [|i' n' t' u' Hi' Ht']; subst. inversion Ht'; subst.
      destruct i as [|[|]], i' as [|[|]]; try lia; (eapply fn_there; [cbn; eauto 10|reflexivity|reflexivity]).
    - intros I. destruct idx as [|[|[|]] [|[|[|]] [|]]]; try reflexivity; exfalso; apply I; repeat constructor; lia. }
  assert (A2 : forall o, In ("frequencies"%string, JList [NNum 2]) o -> NoDup (map fst o) -> table 0 o w_ [1%nat] wx).
  { intros o IO _ idx. split.
    - intros I. inversion I as [|i n t u Hi Ht]; subst. inversion Ht; subst. destruct i as [|]; [|lia]. eapply fn_there; [exact IO|reflexivity|reflexivity].
    - intros I. destruct idx as [|[|] [|]]; try reflexivity; exfalso; apply I; repeat constructor; lia. }
  assert (A3 : table 0 ex_vib G2_ [1; 1; 2; 2]%nat (fun _ => 0)).
  { intros idx. split; [|reflexivity]. intros _. apply fn_missing. cbn. intuition discriminate. }
  assert (A4 : table 0 ex_rho G1_ [1; 2]%nat lr).
  { intros idx. split.
    - intros I. inversion I as [|i n t u Hi Ht]; subst. inversion Ht as [|i' n' t' u' Hi' Ht']; subst. inversion Ht'; subst.
      destruct i as [|], i' as [|[|]]; try lia; (eapply fn_there; [cbn; eauto 10|reflexivity|reflexivity]).
    - intros I. destruct idx as [|[|] [|[|[|]] [|]]]; try reflexivity; exfalso; apply I; repeat constructor; lia. }
  assert (A5 : table 0 ex_vib w_ [1%nat] wx) by (apply A2; [cbn; auto|repeat constructor; cbn; intuition discriminate]).
  assert (A6 : table 0 ex_rho w_ [1%nat] wx) by (apply A2; [cbn; auto|repeat constructor; cbn; intuition discriminate]).
  repeat (split; [assumption|]).
  destruct (C77_initialize (fun _ => Ok 0%Z) IZR f "vib" "rho" ex_vib ex_rho 2 1 2 12 beta Ex wx (fun _ => 0) (fun _ => 0) _ wx lr
    eq_refl Mv eq_refl Mr ltac:(lia) ltac:(lia) ltac:(lia) ltac:(lia) A1 A5 T2 A3 T1 A6 A4) as (_ & u & IN & _).
  eexists _, _, _. exact IN.
Qed.
(** numbers of modes that do not agree, files without couplings, and other files *)
Example C77_rejected_example :
  let vib := [("number of modes", JInt 2); ("number of surfaces", JInt 1); ("energies", JList [NList [NNum 5]]); ("frequencies", JList [NNum 7; NNum 8])]%Z in
  let rho := [("number of modes", JInt 2); ("number of surfaces", JInt 1); ("energies", JList [NNum 5]); ("frequencies", JList [NNum 7; NNum 8])]%Z in
  let f : fs Z := fun p => if String.eqb p "vib" then Some (CJson vib) else if String.eqb p "rho" then Some (CJson rho)
                           else if String.eqb p "text" then Some CText else if String.eqb p "key" then Some (CJson [("modes", JInt 2)]) else None in
  let int := fun z : Z => Ok z in
  extract_dimensions int f (Some "vib") None = Ok (1, 2)%Z /\ extract_dimensions int f None (Some "none") = Raise AssertionError /\
  extract_dimensions int f (Some "text") None = Raise ValueError /\ extract_dimensions int f (Some "key") None = Raise ValueError /\
  (exists m, load_vib 0%Z int (fun z => z) f "vib" 1 2 = Ok m /\ p_omega m = mkArr [2%nat] [7; 8]%Z) /\
  load_vib 0%Z int (fun z => z) f "vib" 1 3 = Raise ValueError /\
  (exists m, load_rho 0%Z int (fun z => z) f "rho" 2 = Ok m /\ p_energy m = mkArr [1%nat] [5]%Z) /\
  load_rho 0%Z int (fun z => z) f "rho" 3 = Raise AssertionError /\ load_fresh 0%Z int f "vib" = Raise KeyError.
Proof. repeat split; try (vm_compute; reflexivity); eexists; split; vm_compute; reflexivity. Qed.
