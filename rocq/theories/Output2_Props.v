(** C83, C84: the single operations on the files *)
From Coq Require Import Lia.
From Verif Require Import Common FileSearch_Model Output_Model.
Local Open Scope nat_scope.

Lemma nth_firstn {A} (l : list A) n i : i < n -> nth_error (firstn n l) i = nth_error l i.
Proof. revert l i. induction n as [|n IH]; intros l i L; [lia|]. destruct l as [|x l]; [destruct i; reflexivity|]. destruct i as [|i]; [reflexivity|]. cbn. apply IH. lia. Qed.
Lemma nth_skipn {A} (l : list A) n i : nth_error (skipn n l) i = nth_error l (n + i).
Proof. revert l. induction n as [|n IH]; intros l; [reflexivity|]. destruct l as [|x l]; [destruct i; reflexivity|]. cbn. apply IH. Qed.
(** moving: the moved range holds the old contents of the source range, everything else stays *)
Theorem C83_move d dest src count : dest + count <= length d -> src + count <= length d ->
  length (mmove d dest src count) = length d /\
  forall i, nth_error (mmove d dest src count) i = nth_error d (if (dest <=? i) && (i <? dest + count) then src + (i - dest) else i).
Proof.
  intros L1 L2. unfold mmove. assert (A : length (firstn dest d) = dest) by (apply firstn_length_le; lia). assert (B : length (firstn count (skipn src d)) = count) by (apply firstn_length_le; rewrite skipn_length; lia). split.
  - rewrite !app_length, A, B, skipn_length. lia.
  - intros i. destruct (Nat.leb_spec dest i) as [D|D]; cbn [andb].
    + rewrite nth_error_app2 by lia. rewrite A. destruct (Nat.ltb_spec i (dest + count)) as [E|E].
      * rewrite nth_error_app1 by lia. rewrite nth_firstn by lia. apply nth_skipn.
      * rewrite nth_error_app2 by lia. rewrite B, nth_skipn. f_equal. lia.
    + rewrite nth_error_app1 by lia. apply nth_firstn. lia.
Qed.
Example C83_move_ex : mmove (list_ascii_of_string "abcdef") 1 3 2 = list_ascii_of_string "adedef" /\ 1 + 2 <= 6 /\ 3 + 2 <= 6.
Proof. split; [reflexivity|lia]. Qed.
(** a missing file, and a copy onto itself, raise OSError and change nothing *)
Theorem C84_no_file fs nip n m : fs n = None ->
  copy_output_file fs n m = Raise OSError /\ remove_in fs n = (fs, Raise OSError) /\ nip_in nip fs n = (fs, Raise OSError).
Proof. intros E. unfold copy_output_file, remove_in, nip_in. rewrite E. auto. Qed.
Theorem C84_copy fs n m d : fs n = Some d ->
  (n = m -> copy_output_file fs n m = Raise OSError) /\
  (n <> m -> exists fs', copy_output_file fs n m = Ok fs' /\ fs' m = Some d /\ forall k, k <> m -> fs' k = fs k).
Proof.
  intros E. unfold copy_output_file. rewrite E. split.
  - intros ->. rewrite String.eqb_refl. reflexivity.
  - intros N. apply String.eqb_neq in N. rewrite N. eexists. split; [reflexivity|]. unfold put. split; [rewrite String.eqb_refl; reflexivity|]. intros k K. apply String.eqb_neq in K. rewrite K. reflexivity.
Qed.
Example C84_copy_ex : let fs := fun k => if String.eqb k "PNTHEFF" then Some (list_ascii_of_string "x") else None in
  fs "cp.auto"%string = None /\ exists fs', copy_output_file fs "PNTHEFF" "a" = Ok fs' /\ fs' "a"%string = Some (list_ascii_of_string "x").
Proof.
  split; [reflexivity|]. destruct (proj2 (C84_copy (fun k => if String.eqb k "PNTHEFF" then Some (list_ascii_of_string "x") else None) "PNTHEFF" "a" _ eq_refl) ltac:(discriminate)) as (fs' & E & F & _). eauto.
Qed.
Print Assumptions C83_move.
Print Assumptions C84_no_file.
Print Assumptions C84_copy.
