(** C81: reading the coupling file of VIBRON (vibronic/model_auto.py).

    Full statement: whatever the numbers of the file are, the reader returns the frequencies, energies and
    couplings the file holds, with both couplings symmetric; a file that is too short is never accepted. *)
From Coq Require Import QArith Qabs Lia Lqa.
From Verif Require Import Common Common_Proofs PyStr_Model PyStr_Proofs Json_Spec Julia_Spec Auto_Model Auto_Spec Auto_Proofs Auto_Proofs2.
Local Open Scope nat_scope.
Local Open Scope string_scope.

(** ** a concrete file *)
Definition digit_of (i : nat) : string := String (ascii_of_nat (48 + i mod 10)) "".
Definition ex_number (i j a b : nat) : string := (if Nat.eqb a b then "1." else "0.") ++ digit_of (i / 10) ++ digit_of i ++ digit_of (j / 10) ++ digit_of j.
Definition ex_row (i j a : nat) : string := ex_number i j a 0 ++ " " ++ ex_number i j a 1.
Definition ex_value (s : string) : Q := match py_float_str s with Ok q => q | Raise _ => 0%Q end.
Definition ex_pair (s : string) : res (Q * Q) :=
  match split " " s with [a; b] => do x <- py_float_str a; do y <- py_float_str b; Ok (x, y) | _ => Raise ValueError end.
Definition ex_gradient (s : string) : res unit := if String.prefix "Gradient" s then Ok tt else Raise ValueError.
Definition ex_record (s : string) : res unit := if String.prefix "number" s then Ok tt else Raise ValueError.
Definition ex_doc : doc := mkDoc (fun _ => "Title") (fun i => "number of modes " ++ digit_of i) (fun i => "Parent gradient " ++ digit_of i)
  (fun i => "Hessian 100.5 cm-1 0." ++ digit_of i ++ "5 eV") (ex_row 50 0) (ex_row 51 0)
  (fun i => "Gradient " ++ digit_of i) (fun i => ex_row i 0) (fun i => "Gradient " ++ digit_of i) (fun i => ex_row i i)
  (fun i j => "modes " ++ digit_of i ++ digit_of j) (fun i j => ex_row i j).
Definition ex_vals : vals := mkVals (fun i => ex_value (" 0." ++ digit_of i ++ "5 ")) (fun a b => ex_value (ex_number 50 0 a b)) (fun a b => ex_value (ex_number 51 0 a b))
  (fun i a b => ex_value (ex_number i 0 a b)) (fun i j a b => ex_value (ex_number i j a b)).

Lemma below_12 (P : nat -> Prop) : P 0 -> P 1 -> P 2 -> P 3 -> P 4 -> P 5 -> P 6 -> P 7 -> P 8 -> P 9 -> P 10 -> P 11 -> forall i, i < 12 -> P i.
Proof. intros. do 12 (destruct i as [|i]; [assumption|]). lia. Qed.
Lemma not_occurs p s : contains p s = false -> ~ occurs p s.
Proof. intros E O. apply contains_spec in O. congruence. Qed.
Example ex_holds : holds ex_pair ex_gradient ex_record py_float_str ex_doc ex_vals.
Proof.
  constructor.
  - intros i I. destruct i as [|[|[|]]]; [reflexivity..|lia].
  - apply below_12; (match goal with |- exists pre num post, w _ ?i = _ /\ _ => exists "Hessian 100.5 ", (" 0." ++ digit_of i ++ "5 "), "" end; split; [reflexivity|split; [apply not_occurs; reflexivity|split; [apply not_occurs; reflexivity|reflexivity]]]).
  - (intros a A; destruct a as [|[|]]; [reflexivity|reflexivity|lia]).
  - (intros a A; destruct a as [|[|]]; [reflexivity|reflexivity|lia]).
  - apply below_12; reflexivity.
  - apply below_12; (intros a A; destruct a as [|[|]]; [reflexivity|reflexivity|lia]).
  - apply below_12; reflexivity.
  - apply below_12; (intros a A; destruct a as [|[|]]; [reflexivity|reflexivity|lia]).
  - intros i j I. do 12 (destruct i as [|i]; [do 12 (destruct j as [|j]; [try lia; (intros a A; destruct a as [|[|]]; [reflexivity|reflexivity|lia])|]); lia|]); lia.
Qed.

Example ex_symmetric : surface_symmetric ex_vals.
Proof.
  assert (S : forall i j a b, ex_number i j a b = ex_number i j b a) by (intros; unfold ex_number; rewrite Nat.eqb_sym; reflexivity).
  assert (Z : forall q : Q, (Qabs (q - q) <= (1 # 100000000) + (1 # 100000) * Qabs q)%Q).
  { intros q. setoid_replace (q - q)%Q with 0%Q by ring. pose proof (Qabs_nonneg q). change (Qabs 0) with 0%Q. lra. }
  intros a b _ _. cbn [lin quad ex_vals]. split; intros; rewrite (S _ _ a b); apply Z.
Qed.

(** the numbers read are those of the file *)
Definition is_result (v : vals) (r : auto) : Prop :=
  nel r = 2 /\ nmode r = 12 /\
  (forall i, i < 12 -> frequencies r i = freq v i) /\
  (forall a b, a < 2 -> b < 2 -> excitation_energies r a b = energy v a b) /\
  (forall i a b, i < 12 -> a < 2 -> b < 2 -> linear_couplings r i a b = lin v i a b) /\
  (forall i j a b, i < 12 -> j < 12 -> a < 2 -> b < 2 -> (quadratic_couplings r i j a b == quad v (max i j) (min i j) a b)%Q).

Section Props.
  Context (read_pair : string -> res (Q * Q)) (read_gradient read_int_record : string -> res unit) (py_float : string -> res Q).
  Notation readf := (read_model_auto_file read_pair read_gradient read_int_record py_float).
  Notation holds := (holds read_pair read_gradient read_int_record py_float).

  (** a complete file: the numbers are returned if the couplings are symmetric in the surfaces, and the reading
      fails otherwise; what follows the last block does not matter *)
  Theorem C81_reads ls x extra v : ls <> [] -> Forall (free nl) ls -> sifted ls (doc_lines x ++ extra)%list -> holds x v ->
    (surface_symmetric v -> exists r, readf (Some (lines_text ls)) = Ok r /\ is_result v r) /\
    (~ surface_symmetric v -> readf (Some (lines_text ls)) = Raise AssertionError).
  Proof.
    intros N F S H. cbn [read_model_auto_file]. rewrite (lines_of_text _ _ N F S). rewrite (read_doc _ _ _ _ _ _ _ H). unfold final. split.
    - intros Y. apply surfaces_spec in Y. unfold lift, rbind. rewrite Y, modes_ok. eexists. split; [reflexivity|]. repeat split; cbn.
      + intros i I. apply freq0_at. exact I.
      + intros a b A B. apply filled_at; assumption.
      + intros i a b I A B. apply lin0_at; assumption.
      + intros i j a b I J A B. apply quad_at; assumption.
    - intros Y. unfold lift, rbind. match goal with |- context [confirm_symmetry_in_surfaces ?p ?q] => destruct (confirm_symmetry_in_surfaces p q) as [[]|e] eqn:E end.
      + apply surfaces_spec in E. contradiction.
      + revert E. unfold confirm_symmetry_in_surfaces, passert. destruct (all_range 2 _); congruence.
  Qed.
  (** a file that ends before the last row is never accepted *)
  Theorem C81_short ls x v ds y more : ls <> [] -> Forall (free nl) ls -> holds x v -> doc_lines x = (ds ++ y :: more)%list -> sifted ls ds ->
    readf (Some (lines_text ls)) = Raise OtherException.
  Proof.
    intros N F H E S. cbn [read_model_auto_file]. rewrite (lines_of_text _ _ N F S). rewrite (short_doc _ _ _ _ _ _ H _ _ _ E). reflexivity.
  Qed.
  (** the first block of energies is not used: the program reads two blocks and keeps the second.  A file with one block
      is not read as intended: the next title is taken for a row of energies *)
  Definition one_block (x : doc) : list string :=
    ([t x 0] ++ [h x 0; h x 1; h x 2; h x 3] ++ [t x 1] ++ map (g x) (seq 0 12) ++ [t x 2] ++ map (w x) (seq 0 12) ++ [t x 3] ++ [e1 x 0; e1 x 1] ++ [t x 4])%list.
  Theorem C81_one_block ls x v more e : ls <> [] -> Forall (free nl) ls -> holds x v -> read_pair (t x 4) = Raise e ->
    sifted ls (one_block x ++ more)%list -> readf (Some (lines_text ls)) = Raise e.
  Proof.
    intros N F H T S. cbn [read_model_auto_file]. rewrite (lines_of_text _ _ N F S). unfold one_block. repeat rewrite <- app_assoc. unfold read_auto.
    erewrite step by apply reads_next. erewrite step by (eapply reads_header; exact H). erewrite step by apply reads_next. erewrite step by apply reads_skip.
    erewrite step by apply reads_next. erewrite step by (eapply reads_frequencies; exact H). erewrite step by apply reads_next.
    erewrite step by (apply reads_matrix; exact (H_e1 _ _ _ _ _ _ H)).
    unfold fill_in_excitation_energies, read_matrix, el_range. cbn [seq for_lines app]. unfold rbind, next_line, lift. rewrite T. reflexivity.
  Qed.
  (** a frequency that is not a number is reported with the exception of float() *)
  Theorem C81_bad_frequency ls x v k pre num post e ds more : ls <> [] -> Forall (free nl) ls -> holds x v -> k < 12 ->
    ~ occurs "cm-1" (pre ++ "cm-") -> ~ occurs "eV" (num ++ "e") -> py_float num = Raise e ->
    doc_lines x = (ds ++ w x k :: more)%list -> length ds = 19 + k ->
    sifted ls (ds ++ (pre ++ "cm-1" ++ num ++ "eV" ++ post)%string :: more)%list ->
    readf (Some (lines_text ls)) = Raise e.
  Proof.
    intros N F H K A B P E L S. cbn [read_model_auto_file]. rewrite (lines_of_text _ _ N F S). clear ls N F S.
    set (bad := (pre ++ "cm-1" ++ num ++ "eV" ++ post)%string).
    assert (D : ds = ([t x 0] ++ [h x 0; h x 1; h x 2; h x 3] ++ [t x 1] ++ map (g x) (seq 0 12) ++ [t x 2] ++ flat_map (fun i => [w x i]) (seq 0 k))%list).
    { apply (f_equal (firstn (length ds))) in E. rewrite firstn_app, firstn_all, Nat.sub_diag, firstn_O, app_nil_r in E. rewrite <- E, L. clear - K. do 12 (destruct k as [|k]; [reflexivity|]). lia. }
    clear E L. subst ds. repeat rewrite <- app_assoc. unfold read_auto.
    erewrite step by apply reads_next. erewrite step by (eapply reads_header; exact H). erewrite step by apply reads_next. erewrite step by apply reads_skip. erewrite step by apply reads_next.
    unfold rbind at 1. unfold mode_range. rewrite (ModelOp_Proofs.seq_split 12 k K). change (bad :: more) with ([bad] ++ more)%list.
    erewrite (for_fail (seq 0 k) (seq (S k) (12 - k - 1)) k _ (fun i => [w x i]) (fun i u i' => if Nat.eqb i' i then freq v i else u i') _ [bad] more e); [reflexivity| |].
    - intros i u I. apply in_seq in I. eapply reads_frequency; [exact H|lia].
    - intros u rest. unfold rbind, next_line, lift. cbn [app]. unfold bad. rewrite number_between by (apply contains_not; assumption). rewrite P. reflexivity.
  Qed.
  Example C81_missing : readf None = Raise OSError.
  Proof. reflexivity. Qed.
End Props.

(** ** examples *)
Definition ex_lines (l : list string) : list string := ["  "; "  ---------- "]%list ++ map (fun s => (s ++ "  ")%string) l ++ [""].
Definition ex_run (l : list string) : res auto := read_model_auto_file ex_pair ex_gradient ex_record py_float_str (Some (lines_text (ex_lines l))).
Lemma ex_sifted l ds : map rstrip (filter kept (ex_lines l)) = ds -> sifted (ex_lines l) ds.
Proof. intros <-. apply sifted_total. Qed.
Lemma ex_free l : forallb (fun s => all_chars (fun c => negb (Ascii.eqb c nl)) s) l = true -> Forall (free nl) l.
Proof.
  rewrite forallb_forall. intros H. apply Forall_forall. intros s I. specialize (H s I). revert H. clear. unfold free, chars. induction s as [|c s IH]; cbn; [tauto|]. rewrite andb_true_iff, negb_true_iff. intros [C S] [->|J]; [|exact (IH S J)].
  rewrite Ascii.eqb_refl in C. discriminate.
Qed.
Example C81_reads_ex : (exists r, ex_run (doc_lines ex_doc ++ ["more"]) = Ok r /\ is_result ex_vals r) /\
  (quad ex_vals 7 3 0 1 == 703 # 10000)%Q /\ (freq ex_vals 4 == 45 # 100)%Q /\ (energy ex_vals 0 0 == 151 # 100)%Q.
Proof.
  split; [|repeat split; reflexivity]. eapply C81_reads; [discriminate|apply ex_free; reflexivity| |exact ex_holds|exact ex_symmetric]. apply ex_sifted. reflexivity.
Qed.
(** with other linear couplings, not symmetric *)
Definition ex_doc2 : doc := mkDoc (t ex_doc) (h ex_doc) (g ex_doc) (w ex_doc) (e1 ex_doc) (e2 ex_doc) (lt ex_doc) (fun i a => if Nat.eqb a 0 then "0.5 0.25" else "0.125 0.5") (dt ex_doc) (d ex_doc) (ot ex_doc) (o ex_doc).
Definition ex_vals2 : vals := mkVals (freq ex_vals) (energy0 ex_vals) (energy ex_vals) (fun _ a b => if Nat.eqb a b then 5 # 10 else if Nat.eqb a 0 then 25 # 100 else 125 # 1000)%Q (quad ex_vals).
Example C81_reads_asymmetric_ex : ex_run (doc_lines ex_doc2) = Raise AssertionError.
Proof.
  apply (C81_reads ex_pair ex_gradient ex_record py_float_str _ ex_doc2 [] ex_vals2); [discriminate|apply ex_free; reflexivity|apply ex_sifted; reflexivity| |].
  - destruct ex_holds. constructor; try assumption. apply below_12; (intros a A; destruct a as [|[|]]; [reflexivity|reflexivity|lia]).
  - intros Y. destruct (Y 0 1 ltac:(lia) ltac:(lia)) as [L _]. specialize (L 0 ltac:(lia)). cbn in L. lra.
Qed.
Example C81_short_ex : ex_run (removelast (doc_lines ex_doc)) = Raise OtherException.
Proof.
  eapply (C81_short ex_pair ex_gradient ex_record py_float_str _ ex_doc ex_vals (removelast (doc_lines ex_doc)) _ []); [discriminate|apply ex_free; reflexivity|exact ex_holds| |apply ex_sifted; reflexivity].
  apply (app_removelast_last "" (l := doc_lines ex_doc)). discriminate.
Qed.
Example C81_one_block_ex : ex_run (one_block ex_doc ++ ["Gradient 0"; "0.1 0.2"]) = Raise ValueError.
Proof.
  apply (C81_one_block ex_pair ex_gradient ex_record py_float_str _ ex_doc ex_vals ["Gradient 0"; "0.1 0.2"]); [discriminate|apply ex_free; reflexivity|exact ex_holds|reflexivity|apply ex_sifted; reflexivity].
Qed.
Example C81_bad_frequency_ex : ex_run (firstn 21 (doc_lines ex_doc) ++ ["Hessian 100.5 cm-1 ****** eV"] ++ skipn 22 (doc_lines ex_doc)) = Raise ValueError.
Proof.
  apply (C81_bad_frequency ex_pair ex_gradient ex_record py_float_str _ ex_doc ex_vals 2 "Hessian 100.5 " " ****** " "" ValueError (firstn 21 (doc_lines ex_doc)) (skipn 22 (doc_lines ex_doc)));
    [discriminate|apply ex_free; reflexivity|exact ex_holds|lia|apply not_occurs; reflexivity|apply not_occurs; reflexivity|reflexivity|reflexivity|reflexivity|apply ex_sifted; reflexivity].
Qed.
Print Assumptions C81_reads.
Print Assumptions C81_short.
Print Assumptions C81_one_block.
Print Assumptions C81_bad_frequency.
