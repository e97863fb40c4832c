(** C102: the files of the training data (pimc/pimc.py:602-611, 1216-1338, examples/basic_ml_testing.py:20-103) *)
From Coq Require Import QArith.
From Verif Require Import Common Common_Proofs PyStr_Model PyStr_Proofs FileName_Model FileName_Proofs FileStruct_Model FileStruct_Proofs Job_Model Job_Spec Job_Proofs Job2_Proofs Job4_Proofs Job5_Proofs Train_Model Train_Proofs.
Local Open Scope string_scope.
Local Open Scope nat_scope.

(** the three files *)
Definition input_file (dir : string) (P : Z) (T : Q) (J : Z) : string := join dir ("P" ++ dec P ++ "_T" ++ fmt2 T ++ "_J" ++ dec J ++ "_training_data_input.npz").
Definition g_file (dir : string) (P : Z) (T : Q) (J : Z) : string := join dir ("P" ++ dec P ++ "_T" ++ fmt2 T ++ "_J" ++ dec J ++ "_training_data_g_output.npz").
Definition rho_file (dir : string) (P : Z) (T : Q) (J : Z) : string := join dir ("P" ++ dec P ++ "_T" ++ fmt2 T ++ "_J" ++ dec J ++ "_training_data_rho_output.npz").
Lemma name_slash P T J x : lacks "/" x -> lacks "/" ("P" ++ dec P ++ "_T" ++ fmt2 T ++ "_J" ++ dec J ++ x).
Proof. intros K. rewrite !lacks_app. repeat split; try (apply dec_lacks; try reflexivity; discriminate); try apply fmt2_no_slash; try exact K; apply lacks_lit; reflexivity. Qed.
Lemma name_rel P T J x : rel ("P" ++ dec P ++ "_T" ++ fmt2 T ++ "_J" ++ dec J ++ x). Proof. simpl. discriminate. Qed.
(** C102: the three files of a job are different files *)
Theorem C102_files v r P T J : let dv := v ++ "/" in let dr := r ++ "/" in
  input_file dv P T J <> g_file dv P T J /\ input_file dv P T J <> rho_file dr P T J /\ g_file dv P T J <> rho_file dr P T J.
Proof.
  assert (G : forall a b x y, lacks "/" x -> lacks "/" y -> join (a ++ "/") ("P" ++ dec P ++ "_T" ++ fmt2 T ++ "_J" ++ dec J ++ x) = join (b ++ "/") ("P" ++ dec P ++ "_T" ++ fmt2 T ++ "_J" ++ dec J ++ y) -> x = y).
  { intros a b x y Lx Ly E. rewrite !join_slash in E by apply name_rel. apply last_slash_unique in E; try (apply name_slash; assumption). destruct E as [_ E]. repeat apply append_inj_l in E. exact E. }
  cbn zeta. unfold input_file, g_file, rho_file. split; [|split]; intros E; apply G in E; try discriminate; apply lacks_lit; reflexivity.
Qed.
Print Assumptions C102_files.

Section Props.
  Context {Smp Draw Sh Val : Type}.
  Notation files := (fsys (saved Smp Val)).

  (** C102: the coordinates and the values of g are saved row by row, the job fails without writing if the blocks do not fit or
      there is no sample *)
  Theorem C102_pairs (g : Smp -> Val) draw size blocks P T (fs : files) b : length (b_g b) = b_samples b ->
    let X := b_samples b in
    let J := match b_id_job b with Some j => j | None => 0%Z end in
    (X < blocks * size -> block_compute_gR_from_raw_samples g draw X size blocks P T fs b = Raise ValueError) /\
    (X = 0 -> blocks * size = 0 -> block_compute_gR_from_raw_samples g draw X size blocks P T fs b = Raise AssertionError) /\
    (0 < X -> blocks * size <= X -> exists R G b' fs', block_compute_gR_from_raw_samples g draw X size blocks P T fs b = Ok (b', fs') /\
       length R = X /\ length G = X /\
       (forall i, i < blocks * size -> exists x, x = draw (i / size) (i mod size) /\ nth_error R i = Some (Some x) /\ nth_error G i = Some (Some (g x))) /\
       (forall i, blocks * size <= i < X -> nth_error R i = Some None /\ nth_error G i = nth_error (b_g b) i) /\
       (forall p, fs' p = if String.eqb p (input_file (b_root b) P T J) then Some (SR X R) else if String.eqb p (g_file (b_root b) P T J) then Some (SG X G) else fs p) /\
       b_g b' = G /\ b_rho b' = b_rho b /\ b_samples b' = X /\ b_id_job b' = b_id_job b /\ b_root b' = b_root b).
  Proof.
    intros L X J. unfold block_compute_gR_from_raw_samples. split; [|split].
    - intros B. rewrite (raw_loop_fails g draw X size (b_g b) L blocks B). reflexivity.
    - intros Z B. destruct (raw_loop g draw X size (b_g b) L blocks ltac:(lia)) as (R & G & E & _). rewrite E. cbn [bind fst snd].
      unfold save_gR_with_samples, compute_path_to_file. cbn [with_name with_g b_samples]. fold X. rewrite Z. reflexivity.
    - intros N B. destruct (raw_loop g draw X size (b_g b) L blocks B) as (R & G & E & LR & LG & I1 & I2). rewrite E. cbn [bind fst snd].
      unfold save_gR_with_samples, compute_path_to_file. cbn [with_name with_g b_samples b_root b_id_job b_partial_name]. fold X. destruct (Nat.eqb_spec X 0) as [Z|Z]; [lia|]. cbn [bind]. fold J.
      exists R, G. do 2 eexists. split; [reflexivity|]. split; [exact LR|]. split; [exact LG|]. split; [intros i Li; eexists; split; [reflexivity|apply I1; exact Li]|]. split.
      + intros i Li. destruct (I2 i ltac:(lia)) as [A1 A2]. split; [|exact A2]. rewrite A1. rewrite (nth_error_nth' _ None) by (rewrite repeat_length; lia). rewrite nth_repeat. reflexivity.
      + split; [reflexivity|]. repeat split.
  Qed.

  (** C102: a new object is filled completely exactly if the blocks make up all samples; with the whole number of blocks that
      fit, exactly if the block size divides the number of samples *)
  Theorem C102_complete (g : Smp -> Val) draw size blocks P T (fs : files) hv hr v J X b' fs' :
    block_compute_gR_from_raw_samples g draw X size blocks P T fs (new_box P T X hv hr (v ++ "/") (Some J)) = Ok (b', fs') ->
    exists R G, fs' (input_file (v ++ "/") P T J) = Some (SR X R) /\ fs' (g_file (v ++ "/") P T J) = Some (SG X G) /\
      ((forall i, i < X -> exists x, nth_error R i = Some (Some x) /\ nth_error G i = Some (Some (g x))) <-> blocks * size = X) /\
      (blocks = X / size -> size <> 0 -> (blocks * size = X <-> Nat.divide size X)).
  Proof.
    intros E. destruct (C102_pairs g draw size blocks P T fs (new_box P T X hv hr (v ++ "/") (Some J))) as (F1 & F2 & F3); [apply repeat_length|].
    cbn [new_box b_samples b_id_job b_root b_g] in F1, F2, F3. destruct (Nat.lt_ge_cases X (blocks * size)) as [Q|Q]; [rewrite F1 in E by exact Q; discriminate|].
    destruct (Nat.eq_dec X 0) as [Z|Z]; [rewrite F2 in E by lia; discriminate|]. destruct F3 as (R & G & b1 & fs1 & E' & LR & LG & I1 & I2 & FF & _); [lia|lia|]. rewrite E' in E. injection E as <- <-.
    exists R, G. destruct (C102_files v v P T J) as (N1 & _ & _). split; [rewrite FF, String.eqb_refl; reflexivity|]. split; [rewrite FF, (proj2 (String.eqb_neq _ _)) by congruence; rewrite String.eqb_refl; reflexivity|].
    split; [split|].
    - intros All. destruct (Nat.eq_dec (blocks * size) X) as [Y|Y]; [exact Y|]. destruct (All (blocks * size) ltac:(lia)) as (x & A & _). destruct (I2 (blocks * size) ltac:(lia)) as [A' _]. congruence.
    - intros Y i Li. destruct (I1 i ltac:(lia)) as (x & _ & A1 & A2). eauto.
    - intros -> Ns. split; [intros Y; exists (X / size); lia|]. intros (q & ->). rewrite Nat.div_mul by exact Ns. reflexivity.
  Qed.

  (** C102: a job of the example script gives 100 pairs, and for the sampling model of the data the same 100 coordinates with
      their rho, in three files; no other file is touched *)
  Theorem C102_data_set (g rho : Smp -> Val) draw hv hr v r P T J D (fs : files) id : id = None \/ id = Some D ->
    exists b1 fs1 b2 fs2 R G Rho,
      generate_basic_data_set g draw hv hr (v ++ "/") P T J fs = Ok (b1, fs1) /\
      generate_rho_output_values rho 100 100 1 P T D (v ++ "/") (r ++ "/") fs1 b1 id = (D, Ok (b2, fs2)) /\
      fs2 (input_file (v ++ "/") P T J) = Some (SR 100 R) /\ fs2 (g_file (v ++ "/") P T J) = Some (SG 100 G) /\ fs2 (rho_file (r ++ "/") P T J) = Some (SRho 100 Rho) /\
      length R = 100 /\ length G = 100 /\ length Rho = 100 /\
      (forall i, i < 100 -> exists x, x = draw 0 i /\ nth_error R i = Some (Some x) /\ nth_error G i = Some (Some (g x)) /\ nth_error Rho i = Some (Some (rho x))) /\
      forall p, p <> input_file (v ++ "/") P T J -> p <> g_file (v ++ "/") P T J -> p <> rho_file (r ++ "/") P T J -> fs2 p = fs p.
  Proof.
    intros I. destruct (C102_files v r P T J) as (N1 & N2 & N3). cbn zeta in *. unfold generate_basic_data_set. change (100 / 100) with 1.
    destruct (C102_pairs g draw 100 1 P T fs (new_box P T 100 hv hr (v ++ "/") (Some J)) (repeat_length _ _)) as (_ & _ & F). cbn [b_samples new_box b_id_job b_root b_g b_rho] in F.
    destruct F as (R & G & b1 & fs1 & E1 & LR & LG & I1 & _ & FF & G1 & G2 & G3 & G4 & G5); [lia|lia|]. exists b1, fs1.
    assert (LO : length (b_rho b1) = 100) by (rewrite G2; apply repeat_length).
    destruct (rho_loop rho 100 100 R (b_rho b1) LR LO 1 ltac:(lia)) as (Rho & E2 & L2 & I2 & _). exists (with_rho b1 (r ++ "/") Rho), (savez fs1 (rho_file (r ++ "/") P T J) (SRho 100 Rho)), R, G, Rho.
    split; [exact E1|]. split.
    { assert (X : generate_rho_output_values rho 100 100 1 P T D (v ++ "/") (r ++ "/") fs1 b1 None = (D, Ok (with_rho b1 (r ++ "/") Rho, savez fs1 (rho_file (r ++ "/") P T J) (SRho 100 Rho)))).
      { unfold generate_rho_output_values. rewrite G4. change (join (v ++ "/") (training_data_input (dec P) (fmt2 T) (dec J))) with (input_file (v ++ "/") P T J). rewrite FF, String.eqb_refl. cbn [saved_samples passert]. rewrite Nat.eqb_refl. cbn [passert bind].
        unfold block_compute_rhoR_from_input_samples. rewrite E2. cbn [bind with_rho b_samples]. rewrite G3. reflexivity. }
      destruct I as [->| ->]; [exact X|]. rewrite <- X. unfold generate_rho_output_values. rewrite Z.eqb_refl. reflexivity. }
    unfold savez. rewrite String.eqb_refl. rewrite (proj2 (String.eqb_neq _ _) N2), (proj2 (String.eqb_neq _ _) N3), !FF, String.eqb_refl.
    rewrite (proj2 (String.eqb_neq (g_file _ _ _ _) (input_file _ _ _ _))) by congruence. rewrite String.eqb_refl. do 6 (split; [first [reflexivity|assumption]|]). split.
    - intros i Li. destruct (I1 i ltac:(lia)) as (x & Ex & A1 & A2). rewrite Nat.div_small, Nat.mod_small in Ex by exact Li. exists x. split; [exact Ex|]. split; [exact A1|]. split; [exact A2|]. rewrite I2 by lia. rewrite A1. reflexivity.
    - intros p P1 P2 P3. rewrite (proj2 (String.eqb_neq _ _) P3), FF, (proj2 (String.eqb_neq _ _) P1), (proj2 (String.eqb_neq _ _) P2). reflexivity.
  Qed.

  (** C102: for another sampling model the function always fails, but leaves its number in the data; the next call with this
      number is computed with the old sampling model *)
  Theorem C102_other_model_refuted (rho : Smp -> Val) X size blocks P T D dv dr (fs : files) b r : r <> D ->
    generate_rho_output_values rho X size blocks P T D dv dr fs b (Some r) = (r, Raise TypeError) /\
    generate_rho_output_values rho X size blocks P T r dv dr fs b (Some r) = generate_rho_output_values rho X size blocks P T r dv dr fs b None.
  Proof.
    intros N. unfold generate_rho_output_values. rewrite Z.eqb_refl, (proj2 (Z.eqb_neq r D) N). split; reflexivity.
  Qed.
  (** C102: without the file of the coordinates, with another number of samples in it and without a job number nothing is computed *)
  Theorem C102_rho_refused (rho : Smp -> Val) X size blocks P T D dv dr (fs : files) b J n R :
    (b_id_job b = None -> generate_rho_output_values rho X size blocks P T D dv dr fs b None = (D, Raise TypeError)) /\
    (b_id_job b = Some J -> fs (input_file dv P T J) = None -> generate_rho_output_values rho X size blocks P T D dv dr fs b None = (D, Raise OSError)) /\
    (b_id_job b = Some J -> fs (input_file dv P T J) = Some (SR n R) -> n <> X -> generate_rho_output_values rho X size blocks P T D dv dr fs b None = (D, Raise AssertionError)) /\
    (b_id_job b = Some J -> fs (input_file dv P T J) = Some (SR X R) -> length R = X -> length (b_rho b) = X -> X < blocks * size -> generate_rho_output_values rho X size blocks P T D dv dr fs b None = (D, Raise ValueError)).
  Proof.
    unfold generate_rho_output_values, input_file, training_data_input. split; [|split; [|split]].
    - intros ->. reflexivity.
    - intros -> E. cbv zeta. rewrite E. reflexivity.
    - intros -> E N. rewrite E. cbn [saved_samples]. rewrite (proj2 (Nat.eqb_neq n X) N). reflexivity.
    - intros -> E L1 L2 B. rewrite E. cbn [saved_samples]. rewrite Nat.eqb_refl. cbn [passert bind]. unfold block_compute_rhoR_from_input_samples. rewrite (rho_loop_fails rho X size R (b_rho b) L1 L2 blocks B). reflexivity.
  Qed.

  (** C102: block_compute_gR saves the values of g of all samples of its blocks, and no value of rho *)
  Theorem C102_gR (g : Draw * Sh -> Val) draw shifts size blocks (fs : files) P T X hv hr root job : length shifts = X ->
    let b := new_box P T X (Some hv) (Some hr) root job in
    (X < blocks * size -> block_compute_gR g draw shifts size blocks fs b = Raise ValueError) /\
    (blocks = 0 -> block_compute_gR g draw shifts size blocks fs b = Raise UnboundLocalError) /\
    (0 < blocks -> 0 < X -> blocks * size <= X -> exists G b' fs', block_compute_gR g draw shifts size blocks fs b = Ok (b', fs') /\ length G = X /\
       (forall i, i < blocks * size -> exists s, nth_error shifts i = Some s /\ nth_error G i = Some (Some (g (draw (i / size) (i mod size), s)))) /\
       (forall i, blocks * size <= i < X -> nth_error G i = Some None) /\
       let name := join root ("P" ++ dec P ++ "_T" ++ fmt2 T ++ "_J" ++ dec (match job with Some j => j | None => 0%Z end) ++ "_data_points.npz") in
       forall p, fs' p = if String.eqb p name then Some (SFull hv hr X (repeat None X) G) else fs p).
  Proof.
    intros L b. unfold block_compute_gR. assert (L0 : length (b_g b) = X) by apply repeat_length. split; [|split].
    - intros B. rewrite (gR_loop_fails g draw X size shifts (b_g b) L L0 blocks B). reflexivity.
    - intros ->. reflexivity.
    - intros NB NX B. destruct (gR_loop g draw X size shifts (b_g b) L L0 blocks B) as (G & E & LG & I1 & I2). rewrite E. cbn [bind]. destruct (Nat.eqb_spec blocks 0) as [Z|_]; [lia|].
      unfold save_results, compute_path_to_file. cbn [with_g b new_box b_samples b_root b_partial_name b_id_job b_hash_vib b_hash_rho b_rho b_g]. destruct (Nat.eqb_spec X 0) as [Z|_]; [lia|]. cbn [bind].
      exists G. do 2 eexists. split; [reflexivity|]. split; [exact LG|]. split; [exact I1|]. split; [|reflexivity].
      intros i Li. rewrite I2 by lia. cbn [b new_box b_g]. rewrite (nth_error_nth' _ None) by (rewrite repeat_length; lia). rewrite nth_repeat. reflexivity.
  Qed.

  (** C102: the object keeps the name of the last file; if its results are saved afterwards the coordinates are lost *)
  Theorem C102_name_kept_refuted (g : Smp -> Val) draw size blocks P T (fs : files) hv hr v J X b' fs' :
    block_compute_gR_from_raw_samples g draw X size blocks P T fs (new_box P T X (Some hv) (Some hr) (v ++ "/") (Some J)) = Ok (b', fs') ->
    exists G, save_results fs' b' = Ok (savez fs' (input_file (v ++ "/") P T J) (SFull hv hr X (repeat None X) G)).
  Proof.
    intros E. unfold block_compute_gR_from_raw_samples in E. cbn [new_box b_g] in E.
    match type of E with bind ?x _ = _ => destruct x as [[R G]|e] end; [|discriminate]. cbn [bind fst snd] in E. unfold save_gR_with_samples, compute_path_to_file in E. cbn [with_name with_g new_box b_samples b_root b_id_job b_partial_name] in E.
    destruct (Nat.eqb_spec X 0) as [Z|Z]; [discriminate|]. cbn [bind] in E. injection E as <- <-. exists G. unfold save_results, compute_path_to_file. cbn. destruct (Nat.eqb_spec X 0) as [Z'|_]; [contradiction|]. reflexivity.
  Qed.
  (** C102: without both hashes nothing is saved *)
  Theorem C102_hashes (fs : files) (b : box Val) : b_hash_vib b = None \/ b_hash_rho b = None -> save_results fs b = Raise AssertionError.
  Proof.
    intros H. unfold save_results, compute_path_to_file. destruct (b_samples b =? 0); [reflexivity|]. cbn [bind]. destruct H as [-> | ->]; [reflexivity|]. destruct (b_hash_vib b); reflexivity.
  Qed.
End Props.
Print Assumptions C102_pairs.
Print Assumptions C102_hashes.
Print Assumptions C102_complete.
Print Assumptions C102_data_set.
Print Assumptions C102_other_model_refuted.
Print Assumptions C102_rho_refused.
Print Assumptions C102_gR.
Print Assumptions C102_name_kept_refuted.

(** 5 samples in blocks of 2: the last row is not filled; 4 samples are *)
Example C102_example :
  let draw := fun k i => k * 10 + i in
  let run X := block_compute_gR_from_raw_samples (fun x => x + 1000) draw X 2 2 12 300 (fun _ => None) (new_box 12 300 X (Some "hv") (Some "hr") "/w/data_set_0/results/" (Some 0%Z)) in
  match run 5 with
  | Ok (b, fs) => fs "/w/data_set_0/results/P12_T300.00_J0_training_data_input.npz" = Some (SR 5 [Some 0; Some 1; Some 10; Some 11; None]) /\
      fs "/w/data_set_0/results/P12_T300.00_J0_training_data_g_output.npz" = Some (SG 5 [Some 1000; Some 1001; Some 1010; Some 1011; None]) /\
      snd (generate_rho_output_values (fun x => x * 2) 5 2 2 12 300 0 "/w/data_set_0/results/" "/w/data_set_0/rho_0/results/" fs b (Some 1%Z)) = Raise TypeError /\
      match snd (generate_rho_output_values (fun x => x * 2) 5 2 2 12 300 1 "/w/data_set_0/results/" "/w/data_set_0/rho_0/results/" fs b (Some 1%Z)) with
      | Ok (_, fs2) => fs2 "/w/data_set_0/rho_0/results/P12_T300.00_J0_training_data_rho_output.npz" = Some (SRho 5 [Some 0; Some 2; Some 20; Some 22; None])
      | Raise _ => False
      end
  | Raise _ => False
  end /\
  run 3 = Raise ValueError /\
  match block_compute_gR (fun p => fst p + snd p) draw [100; 200; 300; 400] 2 2 (fun _ => @None (saved nat nat)) (new_box 12 300 4 (Some "hv") (Some "hr") "/w/" None) with
  | Ok (_, fs) => fs "/w/P12_T300.00_J0_data_points.npz" = Some (SFull "hv" "hr" 4 [None; None; None; None] [Some 100; Some 201; Some 310; Some 411])
  | Raise _ => False
  end.
Proof. vm_compute. repeat split. Qed.
