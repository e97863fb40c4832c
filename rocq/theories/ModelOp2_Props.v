(** Property C51 for whole files: the text of a .op file gives the model in it *)
From Coq Require Import QArith Qabs Qfield Lqa.
From Verif Require Import Common Common_Proofs PyStr_Model PyStr_Proofs ModelIO_Model ModelOp_Model ModelOp_Spec ModelOp_Proofs ModelOp2_Proofs ModelOp4_Proofs ModelOp_Props.
Local Open Scope string_scope.
Local Open Scope nat_scope.
Local Open Scope list_scope.

(** C51: all numbers of the file are read, each into its place; of several numbers
    for the same place the last one counts *)
Theorem C51_reads py_float num d : doc_ok d -> (forall v, In v (numerals d) -> py_float v = Ok (num v)) ->
  exists l, read_listing py_float (Some (op_text d)) = Ok l /\
    l_w l = map num (map snd (rows (d_w d))) /\ l_E l = map num (map snd (rows (d_E d))) /\
    (forall m a b, l_1 l m a b = listed (entries_1 num d) m a b) /\
    (forall m a b, l_2 l m a b = listed (entries_2 num d) m a b) /\
    (forall m a b, l_3 l m a b = listed (entries_3 num d) m a b) /\
    (forall m a b, l_4 l m a b = listed (entries_4 num d) m a b).
Proof. apply read_ok. Qed.
Print Assumptions C51_reads.

(** C51: no file, an empty file, a file without one of the first three parts *)
Theorem C51_absent py_float : read_model_op_file py_float None = Raise OSError /\ read_model_op_file py_float (Some "") = Raise ValueError.
Proof. split; reflexivity. Qed.
Definition has (m text : string) : Prop := exists a b, text = (a ++ m ++ b)%string.
Theorem C51_no_frequencies py_float text : text <> "" -> ~ has "Frequencies" text \/ ~ has "Zeropoint energy" text ->
  read_model_op_file py_float (Some text) = Raise OtherException.
Proof.
  intros N H. unfold read_model_op_file.
  assert (U : read_listing py_float (Some text) = Raise OtherException); [|rewrite U; reflexivity].
  destruct text as [|c s]; [congruence|]. unfold read_listing, extract_normal_mode_frequencies. rewrite section_missing by exact H. reflexivity.
Qed.
Print Assumptions C51_no_frequencies.
(** C51: the other parts may be missing *)
Theorem C51_optional py_float text N A t :
  (~ has "Diagonal Quadratic Coupling Constants" text \/ ~ has "Cubic Coupling Constants" text -> extract_quadratic_couplings py_float text N A t = Ok t) /\
  (~ has "Cubic Coupling Constants" text \/ ~ has "Quartic Coupling Constants" text -> extract_cubic_couplings py_float text N A t = Ok t) /\
  (~ has "Quartic Coupling Constants" text \/ ~ has "Bi-Cubic Constants" text -> extract_quartic_couplings py_float text N A t = Ok t) /\
  (~ has "Bi-Cubic Constants" text \/ ~ has "Bi-Quartic Constants" text -> extract_bicubic_couplings py_float text N A t = Ok t) /\
  (~ has "Bi-Quartic Constants" text \/ ~ has "end-parameter-section" text -> extract_biquartic_couplings py_float text N A t = Ok t) /\
  (~ has "Linear Coupling Constants" text \/ ~ has "Diagonal Quadratic Coupling Constants" text ->
     extract_linear_couplings py_float text N A t = Raise OtherException) /\
  (~ has "Electronic Hamitonian" text \/ ~ has "Electronic transition moments" text -> extract_energies py_float text = Raise OtherException).
Proof.
  unfold extract_quadratic_couplings, extract_cubic_couplings, extract_quartic_couplings, extract_bicubic_couplings, extract_biquartic_couplings,
    extract_linear_couplings, extract_energies, optional_section.
  repeat match goal with |- _ /\ _ => split end; intros H; rewrite section_missing by exact H; reflexivity.
Qed.
Print Assumptions C51_optional.

(** ** the model made of the file *)
Lemma listed_zero es m a b : (forall e, In e es -> entry_for m a b e = false) -> listed es m a b = 0%Q.
Proof.
  intros H. unfold listed. destruct (find (entry_for m a b) (rev es)) as [e|] eqn:E; auto.
  apply find_some in E. destruct E as [E1 E2]. apply in_rev in E1. rewrite H in E2 by auto. discriminate.
Qed.
Lemma entry_for_false m a b m' a' b' q : m <> m' \/ a <> a' \/ b <> b' -> entry_for m a b (m', a', b', q) = false.
Proof.
  intros H. cbn. destruct (list_eq_dec Nat.eq_dec m m'), (Nat.eqb_spec a a'), (Nat.eqb_spec b b'); try reflexivity. tauto.
Qed.
Lemma in_entries_4 num d e : In e (entries_4 num d) -> exists i j k a b q, e = ([i; j; k; k], a, b, q) /\
  (In (a, b) (map (fun r => let '(a, b, _) := fst r in (a, b)) (rows (d_4 d))) \/
   In (a, b) (map (fun r => let '(a, b, _, _) := quartic_key (fst r) in (a, b)) (rows (d_b4 d)))).
Proof.
  unfold entries_4. intros E. rewrite !in_app_iff, in_map_iff, !in_flat_map in E. destruct E as [([[[a b] j] v] & <- & I)|[([q v] & I & J)|([q v] & I & J)]].
  - repeat eexists. left. apply in_map_iff. exists (a, b, j, v). auto.
  - destruct q as [[[[a b] i] j]|]; [|contradiction]. destruct J as [<-|[]]. repeat eexists. right. apply in_map_iff. exists (B4 (a, b, i, j), v). auto.
  - destruct q as [|[[[a b] i] j]]; [contradiction|]. destruct J as [<-|[]]. repeat eexists. right. apply in_map_iff. exists (A4 (a, b, i, j), v). auto.
Qed.
Lemma in_entries_3 num d e : In e (entries_3 num d) -> exists i k a b q, e = ([i; k; k], a, b, q) /\
  (In (a, b) (map (fun r => let '(a, b, _) := fst r in (a, b)) (rows (d_3 d))) \/
   In (a, b) (map (fun r => let '(a, b, _, _) := fst r in (a, b)) (rows (d_b3 d)))).
Proof.
  unfold entries_3. intros E. rewrite !in_app_iff, !in_map_iff in E. destruct E as [([[[a b] j] v] & <- & I)|([[[[a b] i] j] v] & <- & I)].
  - repeat eexists. left. apply in_map_iff. exists (a, b, j, v). auto.
  - repeat eexists. right. apply in_map_iff. exists (a, b, i, j, v). auto.
Qed.

(** the listed couplings of higher order are within one surface, the quadratic
    ones have the larger mode first *)
Definition within2 (r : nat * nat * nat * nat * string) : Prop := let '(a, b, i, j, _) := r in a = b /\ j <= i.
Definition within_a (r : nat * nat * nat * string) : Prop := let '(a, b, _, _) := r in a = b.
Definition within_b (r : nat * nat * nat * nat * string) : Prop := let '(a, b, _, _, _) := r in a = b.
Definition within_q (r : quartic * string) : Prop := let '(a, b, _, _) := quartic_key (fst r) in a = b.
Definition factor (A a : nat) : Q := if a =? A - 1 then 1%Q else 2%Q.
(** C51: the import of such a file.  Linear couplings are right if the larger
    surface comes first; the couplings of higher order are right for the last
    surface and twice too large for the others *)
Theorem C51_file py_float num d : doc_ok d -> (forall v, In v (numerals d) -> py_float v = Ok (num v)) ->
  Forall within2 (rows (d_2 d)) -> Forall within_a (rows (d_3 d)) -> Forall within_a (rows (d_4 d)) ->
  Forall within_b (rows (d_b3 d)) -> Forall within_q (rows (d_b4 d)) ->
  exists model, read_model_op_file py_float (Some (op_text d)) = Ok model /\
  forall k v, In (k, v) model ->
  let N := n_modes d in let A := n_surfaces d in
  match k with
  | N_ => v = OInt N
  | A_ => v = OInt A
  | w_ => v = OVec (map num (map snd (rows (d_w d))))
  | E_ => exists e, v = OMat e /\ forall a b, e a b = if a =? b then nth a (map num (map snd (rows (d_E d)))) 0%Q else 0%Q
  | G1_ => exists t, v = OCoup 1 t /\ forall j a b, a < A -> b < A ->
      (t [j] a b == if (a =? b)%nat then listed (entries_1 num d) [j] a a else listed (entries_1 num d) [j] a b + listed (entries_1 num d) [j] b a)%Q
  | G2_ => exists t, v = OCoup 2 t /\ forall i j a b, a < A -> b < A ->
      (t [i; j] a b == if (a =? b)%nat then factor A a * listed (entries_2 num d) [Nat.max i j; Nat.min i j] a a else 0)%Q
  | G3_ => exists t, v = OCoup 3 t /\ forall i j k a b, a < A -> b < A ->
      (t [i; j; k] a b == if (a =? b)%nat then factor A a * listed (entries_3 num d) [i; j; k] a a else 0)%Q
  | G4_ => exists t, v = OCoup 4 t /\ forall i j k h a b, a < A -> b < A ->
      (t [i; j; k; h] a b == if (a =? b)%nat then factor A a * listed (entries_4 num d) [i; j; k; h] a a else 0)%Q
  end.
Proof.
  intros OK V W2 W3 W4 Wb3 Wb4. destruct (C51_reads py_float num d OK V) as (l & R & Lw & LE & L1 & L2 & L3 & L4).
  assert (LA : length (l_E l) = n_surfaces d) by (rewrite LE, !map_length; auto).
  assert (LN : length (l_w l) = n_modes d) by (rewrite Lw, !map_length; auto).
  rewrite Forall_forall in W2, W3, W4, Wb3, Wb4.
  assert (LO : forall i j a b, i < j \/ a <> b -> l_2 l [i; j] a b = 0%Q).
  { intros i j a b H. rewrite L2. apply listed_zero. intros e I. unfold entries_2 in I. apply in_map_iff in I.
    destruct I as ([[[[a' b'] i'] j'] v] & <- & I). specialize (W2 _ I). cbn in W2. apply entry_for_false.
    destruct H as [H|H]; [left|right; lia]. intros K. injection K as -> ->. lia. }
  assert (X3 : forall e, In e (entries_3 num d) -> let '(_, a, b, _) := e in a = b).
  { intros e I. apply in_entries_3 in I. destruct I as (i & k & a & b & q & -> & [I|I]); apply in_map_iff in I.
    - destruct I as ([[[a' b'] j'] v] & E & I). cbn in E. injection E as -> ->. apply (W3 _ I).
    - destruct I as ([[[[a' b'] i'] j'] v] & E & I). cbn in E. injection E as -> ->. apply (Wb3 _ I). }
  assert (X4 : forall e, In e (entries_4 num d) -> let '(_, a, b, _) := e in a = b).
  { intros e I. apply in_entries_4 in I. destruct I as (i & j & k & a & b & q & -> & [I|I]); apply in_map_iff in I.
    - destruct I as ([[[a' b'] j'] v] & E & I). cbn in E. injection E as -> ->. apply (W4 _ I).
    - destruct I as ([q' v] & E & I). pose proof (Wb4 _ I) as K. unfold within_q in K. cbn [fst] in *. destruct (quartic_key q') as [[[a' b'] i'] j'].
      injection E as -> ->. auto. }
  assert (R3 : repeated3 (l_3 l)).
  { intros i j k a b H. rewrite L3, listed_zero; [reflexivity|]. intros e I. apply in_entries_3 in I. destruct I as (i' & k' & a' & b' & q & -> & _).
    apply entry_for_false. left. congruence. }
  assert (R4 : repeated4 (l_4 l)).
  { intros i j k h a b H. rewrite L4, listed_zero; [reflexivity|]. intros e I. apply in_entries_4 in I. destruct I as (i' & j' & k' & a' & b' & q & -> & _).
    apply entry_for_false. left. congruence. }
  assert (D3 : forall m a b, a <> b -> l_3 l m a b = 0%Q).
  { intros m a b H. rewrite L3. apply listed_zero. intros [[[m' a'] b'] q] I. apply X3 in I. apply entry_for_false. right. lia. }
  assert (D4 : forall m a b, a <> b -> l_4 l m a b = 0%Q).
  { intros m a b H. rewrite L4. apply listed_zero. intros [[[m' a'] b'] q] I. apply X4 in I. apply entry_for_false. right. lia. }
  assert (D2 : forall m a b, a <> b -> l_2 l m a b = 0%Q).
  { intros m a b H. rewrite L2. apply listed_zero. intros e I. unfold entries_2 in I. apply in_map_iff in I.
    destruct I as ([[[[a' b'] i'] j'] v] & <- & I). specialize (W2 _ I). cbn in W2. apply entry_for_false. right. lia. }
  destruct (C51_doubled l) as (model & E & _); auto.
  { intros i j a b H. rewrite LO by lia. reflexivity. }
  { intros m a b H. rewrite D2, D3, D4 by auto. repeat split; reflexivity. }
  exists model. split; [unfold read_model_op_file; rewrite R; exact E|].
  intros k v I. pose proof (C51_values l model k v E I) as K. cbv zeta in K. cbv zeta. rewrite LA, LN in K.
  assert (G : forall x y a b, (forall a b, a <> b -> (x a b == 0)%Q) -> (forall a b, a <> b -> (y a b == 0)%Q) ->
     (got (n_surfaces d) y x a b == if (a =? b)%nat then factor (n_surfaces d) a * y a a else 0)%Q).
  { intros x y a b X Y. unfold got, factor. destruct (Nat.eqb_spec a b) as [->|NE].
    - destruct (b =? n_surfaces d - 1); field.
    - destruct (a <? b); rewrite !Y by auto; rewrite X by auto; destruct (b =? n_surfaces d - 1); ring. }
  destruct k.
  - tauto.
  - tauto.
  - destruct K as (e & -> & K). exists e. split; auto. intros a b. rewrite K, LE. auto.
  - rewrite K, Lw. auto.
  - destruct K as (t & -> & K). exists t. split; auto. intros j a b Ha Hb. rewrite K by auto. unfold wanted. rewrite !L1. reflexivity.
  - destruct K as (t & -> & K). exists t. split; auto. intros i j a b Ha Hb. rewrite K by auto. unfold got2. rewrite G.
    + destruct (a =? b); [|reflexivity]. unfold mirrored2. destruct (Nat.ltb_spec i j).
      * rewrite (LO i j) by auto. rewrite Nat.max_r, Nat.min_l by lia. rewrite L2. ring.
      * rewrite Nat.max_l, Nat.min_r by lia. rewrite L2. ring.
    + intros. rewrite D2 by auto. reflexivity.
    + intros. unfold mirrored2. destruct (i <? j); rewrite !D2 by auto; ring.
  - destruct K as (t & -> & K). exists t. split; auto. intros i j k a b Ha Hb. rewrite K by auto. rewrite got3_raw by auto.
    rewrite G by (intros; rewrite D3 by auto; reflexivity). destruct (a =? b); [|reflexivity]. rewrite L3. reflexivity.
  - destruct K as (t & -> & K). exists t. split; auto. intros i j k h a b Ha Hb. rewrite K by auto. rewrite got4_raw by auto.
    rewrite G by (intros; rewrite D4 by auto; reflexivity). destruct (a =? b); [|reflexivity]. rewrite L4. reflexivity.
Qed.
Print Assumptions C51_file.

(** ** Example: /repo/examples/artificial_systems/input_mctdh/model_2x2.op *)
Definition model_2x2 : opdoc := mkDoc
    ["OP_DEFINE-SECTION"; "title"; "IP"; "end-title"; "end-op_define-section"; ""; ""; "PARAMETER-SECTION"; ""; ""]
    (mkTitle "#        " "") "# ------------------------" [Blank;
     Row 0 "0.01" "                      " "       " "   " "";
     Row 1 "0.02" "                      " "       " "   " "";
     Blank]
    (mkTitle "#        " "     1.3144241232") [""]
    (mkTitle "#   " "") "#   Vertical energies - Zeropoint" "# -------------------------------" [Blank;
     Row 0 "0.0996" "               " "      " "    " "";
     Row 1 "0.1096" "               " "      " "    " "";
     Blank]
    (mkTitle "#     " "") ["# ----------------------------------"; "#     Magnetic transition moments"; "# ----------------------------------"]
    (mkTitle "#  " "") "# --------------------------" [Blank;
     Row (0, 0, 0) "0.070" "           " "       " "    " "";
     Row (0, 0, 1) "-0.072" "           " "      " "    " "";
     Row (1, 1, 0) "-0.070" "           " "      " "    " "";
     Row (1, 1, 1) "0.072" "           " "       " "    " "";
     Blank;
     Blank]
    (mkTitle "#  " "") "# --------------------------------------" [Blank;
     Comment " Off_diagonal Quadratic Coupling Constants";
     Comment " -----------------------------------------";
     Blank]
    (mkTitle "#  " "") "# --------------------------" [Blank]
    (mkTitle "#  " "") "# --------------------------" [Blank]
    (mkTitle "#  " "") "# --------------------------" [Blank]
    (mkTitle "#  " "") "# --------------------------" [Blank;
     Blank]
    (mkTitle "" "") [""; ""].
Example C51_layout_example : op_text model_2x2 = "OP_DEFINE-SECTION
title
IP
end-title
end-op_define-section


PARAMETER-SECTION


#        Frequencies
# ------------------------

w01                      =       0.01   , ev
w02                      =       0.02   , ev

#        Zeropoint energy     1.3144241232

#   Electronic Hamitonian
#   Vertical energies - Zeropoint
# -------------------------------

EH_s01_s01               =      0.0996    , ev
EH_s02_s02               =      0.1096    , ev

#     Electronic transition moments
# ----------------------------------
#     Magnetic transition moments
# ----------------------------------
#  Linear Coupling Constants
# --------------------------

C1_s01_s01_v01           =       0.070    , ev
C1_s01_s01_v02           =      -0.072    , ev
C1_s02_s02_v01           =      -0.070    , ev
C1_s02_s02_v02           =       0.072    , ev


#  Diagonal Quadratic Coupling Constants
# --------------------------------------

# Off_diagonal Quadratic Coupling Constants
# -----------------------------------------

#  Cubic Coupling Constants
# --------------------------

#  Quartic Coupling Constants
# --------------------------

#  Bi-Cubic Constants
# --------------------------

#  Bi-Quartic Constants
# --------------------------


end-parameter-section


".
Proof. vm_compute. reflexivity. Qed.
Lemma clean_check s : all_chars plain s && forallb (fun m => negb (contains m s)) markers = true -> clean s.
Proof.
  intros H. apply andb_true_iff in H. destruct H as [H1 H2]. split; auto. intros m I. apply (lacks_contains m s).
  rewrite forallb_forall in H2. apply negb_true_iff. auto.
Qed.
Ltac check_title := split; [first [left; reflexivity|right; eexists; reflexivity]|split; reflexivity].
Ltac check_line := first [exact I | (apply clean_check; vm_compute; reflexivity) | repeat split; (discriminate || reflexivity)].
Example model_2x2_ok : doc_ok model_2x2 /\ forall v, In v (numerals model_2x2) -> exists q, py_float_str v = Ok q.
Proof.
  split.
  - constructor; cbn [model_2x2 d_pre h_w u_w d_w h_z d_z h_E u_E u_E' d_E h_t d_t h_1 u_1 d_1 h_2 u_2 d_2 h_3 u_3 d_3 h_4 u_4 d_4 h_b3 u_b3 d_b3 h_b4 u_b4 d_b4 h_end d_post List.app].
    + repeat (apply Forall_cons; [apply clean_check; vm_compute; reflexivity|]); constructor.
    + repeat constructor.
    + repeat (apply Forall_cons; [check_title|]); constructor.
    + repeat (apply Forall_cons; [check_line|]); constructor.
    + repeat (apply Forall_cons; [check_line|]); constructor.
    + repeat (apply Forall_cons; [check_line|]); constructor.
    + repeat (apply Forall_cons; [check_line|]); constructor.
    + repeat (apply Forall_cons; [check_line|]); constructor.
    + repeat (apply Forall_cons; [check_line|]); constructor.
    + repeat (apply Forall_cons; [check_line|]); constructor.
    + repeat (apply Forall_cons; [check_line|]); constructor.
    + reflexivity.
    + reflexivity.
    + repeat constructor.
    + repeat constructor.
    + repeat constructor.
    + repeat constructor.
    + repeat constructor.
    + repeat constructor.
  - intros v I. vm_compute in I. repeat destruct I as [<-|I]; try contradiction; eexists; vm_compute; reflexivity.
Qed.
(** C51_reads, C51_file *)
Definition shown (r : res (list (vmk * opval))) (k : vmk) (m : list nat) (a b : nat) : option Q :=
  match r with
  | Ok d => match find (fun kv => vmk_eqb (fst kv) k) d with
            | Some (_, OCoup _ t) => Some (Qred (t m a b))
            | Some (_, OMat e) => Some (Qred (e a b))
            | Some (_, OVec w) => Some (Qred (nth a w 0%Q))
            | _ => None
            end
  | Raise _ => None
  end.
Example C51_file_example :
  let r := read_model_op_file py_float_str (Some (op_text model_2x2)) in
  shown r w_ [] 1 0 = Some (1 # 50)%Q /\ shown r E_ [] 1 1 = Some (137 # 1250)%Q /\ shown r E_ [] 1 0 = Some 0%Q /\
  shown r G1_ [1] 0 0 = Some (-9 # 125)%Q /\ shown r G1_ [0] 1 0 = Some 0%Q /\ shown r G2_ [0; 0] 0 0 = None.
Proof. vm_compute. repeat split; reflexivity. Qed.
(** the same file with couplings of higher order *)
Definition model_more : opdoc :=
  let row {X} (x : X) v := Row x v " " " " " " " " in
  mkDoc ["PARAMETER-SECTION"]
    (mkTitle "# " "") "# ---" [row 0 "0.01"; row 1 "0.02"]
    (mkTitle "# " " 1.5") []
    (mkTitle "# " "") "#" "#" [row 0 "0.5"; Comment " second"; row 1 "0.75"]
    (mkTitle "# " "") []
    (mkTitle "# " "") "#" [row (1, 0, 0) "0.25"]
    (mkTitle "# " "") "#" [row (0, 0, 1, 0) "0.5"; row (1, 1, 1, 1) "0.25"; row (1, 1, 1, 1) "0.125"]
    (mkTitle "# " "") "#" [row (1, 1, 0) "3"]
    (mkTitle "# " "") "#" [row (0, 0, 1) "4"]
    (mkTitle "# " "") "#" [row (1, 1, 0, 1) "5"]
    (mkTitle "# " "") "#" [row (A4 (1, 1, 0, 1)) "6"; row (B4 (1, 1, 0, 1)) "7"]
    (mkTitle "" "") [].
Example model_more_ok : doc_ok model_more /\ Forall within2 (rows (d_2 model_more)) /\ Forall within_q (rows (d_b4 model_more)).
Proof.
  split; [|split; repeat constructor].
  constructor; cbn [model_more d_pre h_w u_w d_w h_z d_z h_E u_E u_E' d_E h_t d_t h_1 u_1 d_1 h_2 u_2 d_2 h_3 u_3 d_3 h_4 u_4 d_4 h_b3 u_b3 d_b3 h_b4 u_b4 d_b4 h_end d_post List.app].
  + repeat (apply Forall_cons; [apply clean_check; vm_compute; reflexivity|]); constructor.
  + repeat constructor.
  + repeat (apply Forall_cons; [check_title|]); constructor.
  + repeat (apply Forall_cons; [check_line|]); constructor.
  + repeat (apply Forall_cons; [check_line|]); constructor.
  + repeat (apply Forall_cons; [check_line|]); constructor.
  + repeat (apply Forall_cons; [check_line|]); constructor.
  + repeat (apply Forall_cons; [check_line|]); constructor.
  + repeat (apply Forall_cons; [check_line|]); constructor.
  + repeat (apply Forall_cons; [check_line|]); constructor.
  + repeat (apply Forall_cons; [check_line|]); constructor.
  + reflexivity.
  + reflexivity.
  + repeat constructor.
  + repeat constructor.
  + repeat constructor.
  + repeat constructor.
  + repeat constructor.
  + repeat constructor.
Qed.
Example C51_more_example :
  let r := read_model_op_file py_float_str (Some (op_text model_more)) in
  shown r G1_ [0] 1 0 = Some (1 # 4)%Q /\ shown r G1_ [0] 0 1 = Some (1 # 4)%Q /\
  shown r G2_ [0; 1] 0 0 = Some 1%Q /\ shown r G2_ [1; 1] 1 1 = Some (1 # 8)%Q /\
  shown r G3_ [0; 0; 0] 1 1 = Some 3%Q /\ shown r G3_ [0; 1; 1] 1 1 = Some 5%Q /\
  shown r G4_ [1; 1; 1; 1] 0 0 = Some 8%Q /\ shown r G4_ [0; 0; 1; 1] 1 1 = Some 6%Q /\ shown r G4_ [0; 1; 1; 1] 1 1 = Some 7%Q.
Proof. vm_compute. repeat split; reflexivity. Qed.
(** C51_no_frequencies: jahnteller_2.op has no zero point energy *)
Example C51_no_frequencies_example : ~ has "Zeropoint energy" "# Frequencies
#" /\ read_model_op_file py_float_str (Some "# Frequencies
#") = Raise OtherException.
Proof. split; [apply (lacks_contains "Zeropoint energy"); reflexivity|vm_compute; reflexivity]. Qed.
