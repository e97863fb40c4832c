(** Further properties C51: lines and indices of the .op file *)
From Coq Require Import QArith Lia.
From Verif Require Import Common Common_Proofs PyStr_Model PyStr_Proofs ModelIO_Model ModelOp_Model ModelOp3_Proofs ModelOp4_Proofs.
Local Open Scope string_scope.
Local Open Scope nat_scope.
Local Open Scope list_scope.

(** C51: a line ends at one of the characters LF, VT, FF, CR, FS, GS, RS and at CR LF, nowhere else *)
Theorem C51_lines (s t : string) (c : ascii) :
  (forall d u v, s = (u ++ String d v)%string -> ~ In (nat_of_ascii d) [10; 11; 12; 13; 28; 29; 30]) ->
  splitlines s = (if string_dec s "" then [] else [s]) /\
  (In (nat_of_ascii c) [10; 11; 12; 13; 28; 29; 30] -> (nat_of_ascii c = 13 -> forall d u, t = String d u -> nat_of_ascii d <> 10) ->
     splitlines (s ++ String c t)%string = s :: splitlines t) /\
  splitlines (s ++ String "013" (String "010" t))%string = s :: splitlines t.
Proof.
  assert (LE : forall d, line_end d = true <-> In (nat_of_ascii d) [10; 11; 12; 13; 28; 29; 30]).
  { intros d. unfold line_end. generalize (nat_of_ascii d). intros n. cbv zeta. cbn [In]. rewrite orb_true_iff, !andb_true_iff, !Nat.leb_le. lia. }
  intros NO. assert (O : one_line s).
  { clear - NO LE. induction s as [|x s IH]; [reflexivity|]. apply one_line_cons. split.
    - destruct (line_end x) eqn:E; [|reflexivity]. apply LE in E. destruct (NO x "" s eq_refl E).
    - apply IH. intros d u v ->. exact (NO d (String x u) v eq_refl). }
  assert (CONS : forall w r, splitlines w = "" :: r -> splitlines (s ++ w)%string = s :: r).
  { clear - O. intros w r E. induction s as [|x s IH]; [exact E|]. apply one_line_cons in O. destruct O as [O1 O2]. cbn [String.append splitlines]. rewrite O1, IH by exact O2. reflexivity. }
  split; [rewrite splitlines_last by exact O; destruct s; destruct (string_dec _ _); congruence|]. split.
  - intros I N. apply CONS. apply LE in I. cbn [splitlines]. rewrite I. destruct t as [|d t]; [reflexivity|].
    destruct (Ascii.eqb_spec c "013") as [->|]; [|reflexivity]. destruct (Ascii.eqb_spec d "010") as [->|]; [|reflexivity]. destruct (N eq_refl _ _ eq_refl eq_refl).
  - apply CONS. destruct t; reflexivity.
Qed.
Print Assumptions C51_lines.
Example C51_lines_example : splitlines (String "a" (String "028" (String "b" (String "013" (String "010" (String "013" "c")))))) = ["a"; "b"; ""; "c"].
Proof. reflexivity. Qed.

(** C51: which entry an index of the file denotes: the file counts from 1; 0 and the
    following negative numbers count from the end (finding: they are not refused) *)
Theorem C51_index n i :
  (forall j, norm_index n (i - 1) = Ok j <-> j < n /\ (i = Z.of_nat j + 1 \/ i = Z.of_nat j + 1 - Z.of_nat n)%Z) /\
  ((i <= - Z.of_nat n \/ Z.of_nat n < i)%Z -> norm_index n (i - 1) = Raise IndexError).
Proof.
  unfold norm_index. cbv zeta. destruct (Z.ltb_spec (i - 1) 0) as [L|L].
  - destruct (Z.leb_spec 0 (i - 1 + Z.of_nat n)) as [A|A]; destruct (Z.ltb_spec (i - 1 + Z.of_nat n) (Z.of_nat n)) as [B|B]; try lia; cbn [andb].
    + split; [|lia]. intros j. split; [intros E; injection E as <-; lia|]. intros [J [E|E]]; [lia|]. f_equal. lia.
    + split; [|reflexivity]. intros j. split; [discriminate|]. intros [J [E|E]]; lia.
  - destruct (Z.leb_spec 0 (i - 1)) as [A|A]; [|lia]. destruct (Z.ltb_spec (i - 1) (Z.of_nat n)) as [B|B]; cbn [andb].
    + split; [|lia]. intros j. split; [intros E; injection E as <-; lia|]. intros [J [E|E]]; [|lia]. f_equal. lia.
    + split; [|reflexivity]. intros j. split; [discriminate|]. intros [J [E|E]]; lia.
Qed.
Print Assumptions C51_index.
Example C51_index_example : norm_index 3 (3 - 1) = Ok 2 /\ norm_index 3 (0 - 1) = Ok 2 /\ norm_index 3 (4 - 1) = Raise IndexError /\ norm_index 3 (-3 - 1) = Raise IndexError.
Proof. repeat split. Qed.
