(** C94: the reader of model.h files *)
From Coq Require Import Lia.
From Verif Require Import Common PyStr_Model PyStr_Proofs FileName_Model FileName_Proofs FileStruct_Model FileSearch_Model FileSearch_Spec FileSearch_Proofs FileSearch_Props ModelOp_Model Auto_Spec Zmat_Spec Zmat_Proofs Orbital2_Proofs Orbital_Props Plot4_Proofs ModelH_Model.
Local Open Scope string_scope.
Local Open Scope list_scope.
Local Open Scope nat_scope.

(** ** the headers of the .in file *)
Lemma counted_ok target line n ws : occurs target line -> worded line (dec n :: ws) -> counted target line = Ok n.
Proof. intros O W. unfold counted. rewrite (proj2 (contains_spec target line) O), (worded_sound _ _ W). cbn [item nth_error bind]. apply py_int_dec. Qed.
Lemma counted_bad target line : ~ occurs target line -> counted target line = Raise OtherException.
Proof. intros O. unfold counted. destruct (contains target line) eqn:E; [|reflexivity]. apply contains_spec in E. destruct (O E). Qed.
(** C94: the number of electronic states is the first word of the second line *)
Theorem C94_states l1 line rest :
  (forall n ws, occurs "Number of electronic states" line -> worded line (dec n :: ws) -> get_number_of_electronic_states (l1 :: line :: rest) = Ok (n, rest)) /\
  (~ occurs "Number of electronic states" line -> get_number_of_electronic_states (l1 :: line :: rest) = Raise OtherException).
Proof.
  unfold get_number_of_electronic_states. cbn [next_line]. split.
  - intros n ws O W. rewrite (counted_ok _ _ _ _ O W). reflexivity.
  - intros O. rewrite (counted_bad _ _ O). reflexivity.
Qed.
(** C94: the numbers of modes are the sum and the symmetric ones *)
Theorem C94_modes a b rest :
  (forall s o ws ws', occurs "Number of symmetric normal modes" a -> worded a (dec s :: ws) -> occurs "Number of non-A1 normal modes" b -> worded b (dec o :: ws') ->
     get_number_of_normal_modes (a :: b :: rest) = Ok ((s + o)%Z, s, rest)) /\
  (~ occurs "Number of symmetric normal modes" a -> get_number_of_normal_modes (a :: b :: rest) = Raise OtherException) /\
  (forall s ws, occurs "Number of symmetric normal modes" a -> worded a (dec s :: ws) -> ~ occurs "Number of non-A1 normal modes" b -> get_number_of_normal_modes (a :: b :: rest) = Raise OtherException).
Proof.
  unfold get_number_of_normal_modes. cbn [next_line]. split; [|split].
  - intros s o ws ws' A WA B WB. rewrite (counted_ok _ _ _ _ A WA). cbn [bind]. rewrite (counted_ok _ _ _ _ B WB). reflexivity.
  - intros A. rewrite (counted_bad _ _ A). reflexivity.
  - intros s ws A WA B. rewrite (counted_ok _ _ _ _ A WA). cbn [bind]. rewrite (counted_bad _ _ B). reflexivity.
Qed.

Section Numbers.
  Variable F : Type.
  Variable py_float : string -> res F.
  Notation read := (extract_normal_mode_frequencies F py_float).

  Lemma floats_ok ws (v : string -> F) : (forall w, In w ws -> py_float w = Ok (v w)) -> map_res py_float ws = Ok (map v ws).
  Proof. intros H. apply map_res_map. exact H. Qed.
  Lemma slice_in n s : s <= n -> slice_at n (Z.of_nat s) = s.
  Proof. intros L. unfold slice_at. destruct (Z.ltb_spec (Z.of_nat s) 0); [lia|]. rewrite Z.min_l by lia. apply Nat2Z.id. Qed.
  (** C94: the frequencies are the words of the third and of the fifth line, in this order *)
  Theorem C94_frequencies h1 h2 a h3 b rest ws us (v : string -> F) arr :
    worded a ws -> worded b us -> (forall w, In w (ws ++ us) -> py_float w = Ok (v w)) -> length arr = length ws + length us ->
    read (h1 :: h2 :: a :: h3 :: b :: rest) arr (Z.of_nat (length ws)) = Ok (map v (ws ++ us), rest).
  Proof.
    intros WA WB H L. unfold extract_normal_mode_frequencies. cbn [next_line]. rewrite (worded_sound _ _ WA), (worded_sound _ _ WB), slice_in by lia.
    rewrite (floats_ok ws v) by (intros w I; apply H; apply in_or_app; left; exact I). cbn [bind]. unfold assign at 1. rewrite map_length, Nat.eqb_refl. cbn [bind].
    rewrite (floats_ok us v) by (intros w I; apply H; apply in_or_app; right; exact I). cbn [bind]. unfold assign. rewrite map_length, app_length, map_length, skipn_length.
    replace (length ws + (length arr - length ws) - length ws) with (length us) by lia. rewrite Nat.eqb_refl. cbn [bind].
    rewrite firstn_app, map_length, Nat.sub_diag. cbn [firstn]. rewrite app_nil_r, <- (map_length v ws), firstn_all, map_app. reflexivity.
  Qed.
  (** C94: a different number of frequencies is an error, except for a single one, which is repeated *)
  Theorem C94_frequencies_count h1 h2 a h3 b rest ws us (v : string -> F) arr s :
    worded a ws -> worded b us -> (forall w, In w (ws ++ us) -> py_float w = Ok (v w)) -> s <= length arr ->
    (length ws <> s -> length ws <> 1 -> read (h1 :: h2 :: a :: h3 :: b :: rest) arr (Z.of_nat s) = Raise ValueError) /\
    (length ws = s \/ length ws = 1 -> length us <> length arr - s -> length us <> 1 -> read (h1 :: h2 :: a :: h3 :: b :: rest) arr (Z.of_nat s) = Raise ValueError) /\
    (forall w u, ws = [w] -> us = [u] -> read (h1 :: h2 :: a :: h3 :: b :: rest) arr (Z.of_nat s) = Ok (repeat (v w) s ++ repeat (v u) (length arr - s), rest)).
  Proof.
    intros WA WB H L. unfold extract_normal_mode_frequencies. cbn [next_line]. rewrite (worded_sound _ _ WA), (worded_sound _ _ WB), slice_in by exact L.
    rewrite (floats_ok ws v) by (intros w I; apply H; apply in_or_app; left; exact I). cbn [bind].
    rewrite (floats_ok us v) by (intros w I; apply H; apply in_or_app; right; exact I). cbn [bind]. split; [|split].
    - intros N1 N2. unfold assign at 1. rewrite map_length. destruct (Nat.eqb_spec (length ws) s); [contradiction|]. destruct ws as [|w [|w' ws]]; cbn [map]; [reflexivity|cbn in N2; lia|reflexivity].
    - intros OR N1 N2. assert (G : exists xs, assign F s (map v ws) = Ok xs /\ length xs = s).
      { unfold assign. rewrite map_length. destruct (Nat.eqb_spec (length ws) s) as [E|E]; [eexists; split; [reflexivity|rewrite map_length; exact E]|].
        destruct OR as [OR|OR]; [contradiction|]. destruct ws as [|w [|w' ws]]; try discriminate. eexists. split; [reflexivity|apply repeat_length]. }
      destruct G as (xs & -> & LX). cbn [bind]. unfold assign. rewrite map_length, app_length, skipn_length, LX. replace (s + (length arr - s) - s) with (length arr - s) by lia.
      destruct (Nat.eqb_spec (length us) (length arr - s)); [contradiction|]. destruct us as [|u [|u' us]]; cbn [map]; [reflexivity|cbn in N2; lia|reflexivity].
    - intros w u -> ->. assert (G : forall x n, assign F n [x] = Ok (repeat x n)) by (intros x n; unfold assign; cbn [length]; destruct (Nat.eqb_spec 1 n) as [<-|]; reflexivity).
      cbn [map]. rewrite !G. cbn [bind]. rewrite app_length, repeat_length, skipn_length. replace (s + (length arr - s) - s) with (length arr - s) by lia. rewrite G. cbn [bind].
      rewrite firstn_app, repeat_length, Nat.sub_diag. cbn [firstn]. rewrite app_nil_r. rewrite <- (repeat_length (v w) s) at 1. rewrite firstn_all. reflexivity.
  Qed.
End Numbers.
(** "a file with too few frequencies is refused" *)
Theorem C94_count_refuted : ~ (forall lines arr s r, extract_normal_mode_frequencies string (fun w => Ok w) lines arr (Z.of_nat s) = Ok r -> exists l1 l2 a l3 b rest, lines = l1 :: l2 :: a :: l3 :: b :: rest /\ length (words a) = s).
Proof.
  intros H. destruct (H ["x"; "x"; "0.5"; "x"; "0.25"] ["0"; "0"; "0"] 2 _ eq_refl) as (l1 & l2 & a & l3 & b & rest & E & L). injection E as <- <- <- <- <- <-. discriminate.
Qed.

(** ** the reader *)
(** C94: no file is ever read, whatever the files contain *)
Theorem C94_read A (isfile : string -> bool) path : (isfile path = true -> isfile (String.substring 0 (String.length path - 2) path ++ ".in")%string = true -> @read_model_h_file A isfile path = Raise TypeError) /\
  (isfile path = false \/ isfile (String.substring 0 (String.length path - 2) path ++ ".in")%string = false -> @read_model_h_file A isfile path = Raise OSError) /\
  (forall x, @read_model_h_file A isfile path <> Ok x).
Proof.
  unfold read_model_h_file. split; [intros -> ->; reflexivity|]. split.
  - intros [-> | E]; [reflexivity|]. rewrite E. destruct (isfile path); reflexivity.
  - intros x. destruct (isfile path), (isfile _); discriminate.
Qed.
(** C94: no model is written from such a file, nor from an address *)
Theorem C94_create A (save : A -> fsys string -> fsys string) fs f path url :
  fst (create_coupling_from_h_file save fs f path) = fs /\ (forall r, snd (create_coupling_from_h_file save fs f path) <> Ok r) /\
  create_coupling_from_op_hyperlink fs url = (fs, Raise AssertionError).
Proof.
  unfold create_coupling_from_h_file. set (isfile := fun p => match fs p with Some _ => true | None => false end). destruct (C94_read A isfile path) as (_ & _ & N).
  destruct (read_model_h_file isfile path) as [x|e]; [destruct (N x eq_refl)|]. split; [reflexivity|]. split; [discriminate|reflexivity].
Qed.

(** [s] is found between two positions *)
Definition between_ (d : list ascii) (s : string) (i j : nat) : Prop := exists p, occurs_at (list_ascii_of_string s) d p /\ i <= p /\ p + String.length s <= j.
Definition first_at (d : list ascii) (s : string) (p : nat) : Prop := occurs_at (list_ascii_of_string s) d p /\ forall q, q < p -> ~ occurs_at (list_ascii_of_string s) d q.
Lemma region_ok d b e i j : first_at d b i -> first_at d e j -> region d b e = Ok (Z.of_nat i, Z.of_nat j).
Proof.
  intros [B1 B2] [E1 E2]. unfold region.
  assert (G : forall s p, occurs_at (list_ascii_of_string s) d p -> (forall q, q < p -> ~ occurs_at (list_ascii_of_string s) d q) -> find_string_in_file (mkMap d 0) (list_ascii_of_string s) = Ok (Z.of_nat p)).
  { intros s p O N. apply (proj1 (C46_find (mkMap d 0) (list_ascii_of_string s) (Nat.le_0_l _))). exists p. split; [reflexivity|]. split; [apply Nat.le_0_l|]. split; [exact O|]. intros q _ Q. destruct (Nat.le_gt_cases p q); [assumption|]. destruct (N q); assumption. }
  rewrite (G b i B1 B2). cbn [bind]. rewrite (G e j E1 E2). reflexivity.
Qed.
Lemma region_bad d b e : (forall p, ~ occurs_at (list_ascii_of_string b) d p) \/ (forall p, ~ occurs_at (list_ascii_of_string e) d p) -> region d b e = Raise OtherException.
Proof.
  intros N. unfold region.
  assert (G : forall s, (forall p, ~ occurs_at (list_ascii_of_string s) d p) -> find_string_in_file (mkMap d 0) (list_ascii_of_string s) = Raise OtherException).
  { intros s H. apply (proj2 (C46_find (mkMap d 0) (list_ascii_of_string s) (Nat.le_0_l _))). intros q _. apply H. }
  destruct N as [N|N]; [rewrite (G b N); reflexivity|]. destruct (find_string_in_file (mkMap d 0) (list_ascii_of_string b)) as [z|x] eqn:E.
  - cbn [bind]. rewrite (G e N). reflexivity.
  - unfold find_string_in_file in E. destruct (_ =? _)%Z in E; [|discriminate]. injection E as <-. reflexivity.
Qed.
Lemma chars_length s : length (list_ascii_of_string s) = String.length s.
Proof. induction s; cbn; congruence. Qed.
Lemma search_ok d w k i j : i <= length d -> (between_ d w i j -> (mfind (mkMap d k) (list_ascii_of_string w) (Z.of_nat i) (Z.of_nat j) =? -1)%Z = false) /\
  (~ between_ d w i j -> (mfind (mkMap d k) (list_ascii_of_string w) (Z.of_nat i) (Z.of_nat j) =? -1)%Z = true).
Proof.
  intros L. pose proof (mfind_spec (mkMap d k) (list_ascii_of_string w) i j (or_introl L)) as G. cbv zeta in G. rewrite chars_length in G. cbn [data] in G.
  destruct G as [[E G]|(p & E & A & B & O & G)]; rewrite E; split; intros H; try reflexivity.
  - destruct H as (p & O & A & B). destruct (G p A B O).
  - destruct (Z.eqb_spec (Z.of_nat p) (-1)); [lia|reflexivity].
  - destruct H. exists p. auto.
Qed.
Lemma first_in d s p : first_at d s p -> p <= length d.
Proof. intros [O _]. pose proof (occurs_length _ _ _ O). lia. Qed.

(** C94: the other functions need a variable that is never defined: nothing is read from a region that is there *)
Theorem C94_energies decodes d :
  (forall i j, first_at d "Reference Hamiltonian" i -> first_at d "Gradients of heff along normal modes" j -> extract_energies decodes d = Raise NameError \/ extract_energies decodes d = Raise ValueError) /\
  ((forall b, decodes b = true) -> forall i j, first_at d "Reference Hamiltonian" i -> first_at d "Gradients of heff along normal modes" j -> extract_energies decodes d = Raise NameError) /\
  ((forall p, ~ occurs_at (list_ascii_of_string "Reference Hamiltonian") d p) \/ (forall p, ~ occurs_at (list_ascii_of_string "Gradients of heff along normal modes") d p) -> extract_energies decodes d = Raise OtherException).
Proof.
  unfold extract_energies. split; [|split].
  - intros i j A B. rewrite (region_ok _ _ _ _ _ A B). cbn [bind]. destruct (decodes _); auto.
  - intros D i j A B. rewrite (region_ok _ _ _ _ _ A B). cbn [bind]. rewrite D. reflexivity.
  - intros N. rewrite (region_bad _ _ _ N). reflexivity.
Qed.
Lemma first_block_spec d b e ws :
  (forall i j, first_at d b i -> first_at d e j ->
     (ws = [] -> first_block d b e ws = Ok tt) /\
     (forall w r, ws = w :: r -> between_ d w i j -> first_block d b e ws = Raise NameError) /\
     (forall w r, ws = w :: r -> ~ between_ d w i j -> first_block d b e ws = Raise OtherException)) /\
  ((forall p, ~ occurs_at (list_ascii_of_string b) d p) \/ (forall p, ~ occurs_at (list_ascii_of_string e) d p) -> first_block d b e ws = Raise OtherException).
Proof.
  unfold first_block. split.
  - intros i j A B. rewrite (region_ok _ _ _ _ _ A B). cbn [bind fst snd]. split; [intros ->; reflexivity|]. split; intros w r -> K.
    + rewrite (proj1 (search_ok d w _ i j (first_in _ _ _ A)) K). reflexivity.
    + rewrite (proj2 (search_ok d w _ i j (first_in _ _ _ A)) K). reflexivity.
  - intros N. rewrite (region_bad _ _ _ N). reflexivity.
Qed.
Theorem C94_linear d ws :
  (forall i j, first_at d "Gradients of heff along normal modes" i -> first_at d "Diagonal second order corrections of heff" j ->
     (ws = [] -> extract_linear_couplings d ws = Ok tt) /\
     (forall w r, ws = w :: r -> between_ d w i j -> extract_linear_couplings d ws = Raise NameError) /\
     (forall w r, ws = w :: r -> ~ between_ d w i j -> extract_linear_couplings d ws = Raise OtherException)) /\
  ((forall p, ~ occurs_at (list_ascii_of_string "Gradients of heff along normal modes") d p) \/ (forall p, ~ occurs_at (list_ascii_of_string "Diagonal second order corrections of heff") d p) -> extract_linear_couplings d ws = Raise OtherException).
Proof. exact (first_block_spec d _ _ ws). Qed.
Theorem C94_quadratic d ws :
  (forall i j, first_at d "Diagonal second order corrections of heff" i -> first_at d "Off-diagonal second order corrections heff" j ->
     (ws = [] -> extract_quadratic_couplings d ws = Ok tt) /\
     (forall w r, ws = w :: r -> between_ d w i j -> extract_quadratic_couplings d ws = Raise NameError) /\
     (forall w r, ws = w :: r -> ~ between_ d w i j -> extract_quadratic_couplings d ws = Raise OtherException)) /\
  ((forall p, ~ occurs_at (list_ascii_of_string "Diagonal second order corrections of heff") d p) \/ (forall p, ~ occurs_at (list_ascii_of_string "Off-diagonal second order corrections heff") d p) -> extract_quadratic_couplings d ws = Raise OtherException).
Proof. exact (first_block_spec d _ _ ws). Qed.
Theorem C94_offdiag d ws :
  (forall i j, first_at d "Off-diagonal second order corrections heff" i -> first_at d "Diagonal Cubic corrections of heff" j ->
     (length ws <= 1 -> extract_offdiag_quadratic_couplings d ws = Ok tt) /\
     (forall w w' r, ws = w :: w' :: r -> between_ d w i j -> between_ d w' i j -> extract_offdiag_quadratic_couplings d ws = Raise NameError) /\
     (forall w w' r, ws = w :: w' :: r -> ~ between_ d w i j \/ ~ between_ d w' i j -> extract_offdiag_quadratic_couplings d ws = Raise OtherException)) /\
  ((forall p, ~ occurs_at (list_ascii_of_string "Off-diagonal second order corrections heff") d p) \/ (forall p, ~ occurs_at (list_ascii_of_string "Diagonal Cubic corrections of heff") d p) -> extract_offdiag_quadratic_couplings d ws = Raise OtherException).
Proof.
  unfold extract_offdiag_quadratic_couplings. split.
  - intros i j A B. rewrite (region_ok _ _ _ _ _ A B). cbn [bind fst snd pos]. rewrite Nat2Z.id. split; [|split].
    + destruct ws as [|w [|w' r]]; cbn; intros L; [reflexivity|reflexivity|lia].
    + intros w w' r -> K K'. rewrite (proj1 (search_ok d w _ i j (first_in _ _ _ A)) K), (proj1 (search_ok d w' _ i j (first_in _ _ _ A)) K'). reflexivity.
    + intros w w' r -> [K|K].
      * rewrite (proj2 (search_ok d w _ i j (first_in _ _ _ A)) K). destruct (_ =? _)%Z; reflexivity.
      * rewrite (proj2 (search_ok d w' _ i j (first_in _ _ _ A)) K). reflexivity.
  - intros N. rewrite (region_bad _ _ _ N). reflexivity.
Qed.

(** ** examples *)
Example C94_states_ex : get_number_of_electronic_states ["title"; " 3 Number of electronic states"; "x"] = Ok (3%Z, ["x"]) /\ get_number_of_electronic_states ["title"; " 3 states"] = Raise OtherException.
Proof. split; reflexivity. Qed.
Example C94_states_hyp : occurs "Number of electronic states" " 3 Number of electronic states" /\ worded " 3 Number of electronic states" (dec 3 :: ["Number"; "of"; "electronic"; "states"]).
Proof.
  split; [exists " 3 ", ""; reflexivity|apply ex_worded; reflexivity].
Qed.
Example C94_modes_ex : get_number_of_normal_modes ["2 Number of symmetric normal modes"; "1 Number of non-A1 normal modes"; "x"] = Ok (3%Z, 2%Z, ["x"]).
Proof. reflexivity. Qed.
Example C94_frequencies_ex :
  extract_normal_mode_frequencies string (fun w => Ok w) ["x"; "x"; "0.1 0.2"; "x"; " 0.3"; "rest"] ["0"; "0"; "0"] 2 = Ok (["0.1"; "0.2"; "0.3"], ["rest"]) /\
  extract_normal_mode_frequencies string (fun w => Ok w) ["x"; "x"; "0.1"; "x"; " 0.3"; "rest"] ["0"; "0"; "0"] 2 = Ok (["0.1"; "0.1"; "0.3"], ["rest"]) /\
  extract_normal_mode_frequencies string (fun w => Ok w) ["x"; "x"; "0.1 0.2 0.3"; "x"; " 0.3"; "rest"] ["0"; "0"; "0"] 2 = Raise ValueError.
Proof. repeat split. Qed.
Example C94_read_ex : @read_model_h_file unit (fun p => String.eqb p "a/m.h" || String.eqb p "a/m.in") "a/m.h" = Raise TypeError /\ @read_model_h_file unit (fun p => String.eqb p "a/m.h") "a/m.h" = Raise OSError.
Proof. split; reflexivity. Qed.
Example C94_blocks_ex :
  let d := list_ascii_of_string "Reference Hamiltonian 1 Gradients of heff along normal modes 500.0 Diagonal second order corrections of heff 500.0 Off-diagonal second order corrections heff 600.0 500.0 Diagonal Cubic corrections of heff" in
  extract_energies (fun _ => true) d = Raise NameError /\ extract_linear_couplings d ["500.0"] = Raise NameError /\ extract_linear_couplings d ["600.0"] = Raise OtherException /\
  extract_quadratic_couplings d ["500.0"; "600.0"] = Raise NameError /\ extract_offdiag_quadratic_couplings d ["500.0"; "600.0"] = Raise NameError /\ extract_offdiag_quadratic_couplings d ["500.0"] = Ok tt.
Proof. vm_compute. repeat split. Qed.

Print Assumptions C94_states.
Print Assumptions C94_modes.
Print Assumptions C94_frequencies.
Print Assumptions C94_frequencies_count.
Print Assumptions C94_count_refuted.
Print Assumptions C94_read.
Print Assumptions C94_create.
Print Assumptions C94_energies.
Print Assumptions C94_linear.
Print Assumptions C94_quadratic.
Print Assumptions C94_offdiag.
