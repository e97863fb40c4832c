(** C46, continued: negative bounds of a search count from the end of the file. *)
From Verif Require Import Common FileSearch_Model.
Local Open Scope nat_scope.

(** C46: a negative bound counts from the end; before the beginning means the beginning, behind the end the end *)
Theorem C46_bounds m sub a b : let size := Z.of_nat (length (data m)) in
  let norm z := (if z <? - size then 0 else if z <? 0 then z + size else if size <? z then size else z)%Z in
  mfind m sub a b = mfind m sub (norm a) (norm b) /\ mrfind m sub a b = mrfind m sub (norm a) (norm b).
Proof.
  cbv zeta. assert (C : forall z, clamp (msize m) z = clamp (msize m) (if z <? - Z.of_nat (length (data m)) then 0 else if z <? 0 then z + Z.of_nat (length (data m)) else if Z.of_nat (length (data m)) <? z then Z.of_nat (length (data m)) else z)%Z).
  { intros z. unfold clamp. change (msize m) with (Z.of_nat (length (data m))). set (n := Z.of_nat (length (data m))). assert (0 <= n)%Z by (unfold n; lia). clearbody n.
    destruct (Z.ltb_spec z (- n)); [|destruct (Z.ltb_spec z 0); [|destruct (Z.ltb_spec n z)]]; f_equal;
    repeat match goal with |- context [(?x <? ?y)%Z] => lazymatch x with context [if _ then _ else _] => fail | _ => destruct (Z.ltb_spec x y) end end; lia. }
  unfold mfind, mrfind, candidates. rewrite (C a), (C b). rewrite <- !C. auto.
Qed.
Print Assumptions C46_bounds.
(** C46: so a search that starts before the beginning finds the first occurrence *)
Theorem C46_before_start m c rest : data m = c :: rest -> mfind m [c] (-2 - Z.of_nat (length rest)) (Z.of_nat (length (data m))) = 0%Z.
Proof.
  intros D. destruct (C46_bounds m [c] (-2 - Z.of_nat (length rest)) (Z.of_nat (length (data m)))) as [-> _]. cbv zeta.
  destruct (Z.ltb_spec (-2 - Z.of_nat (length rest)) (- Z.of_nat (length (data m)))) as [L|L]; [|rewrite D in L; cbn [length] in L; lia].
  destruct (Z.ltb_spec (Z.of_nat (length (data m))) (- Z.of_nat (length (data m)))) as [K|K]; [lia|].
  destruct (Z.ltb_spec (Z.of_nat (length (data m))) 0) as [K1|K1]; [lia|]. rewrite Z.ltb_irrefl.
  unfold mfind, candidates, first_match.
  assert (E : clamp (msize m) 0 = 0) by (unfold clamp; cbn [Z.ltb Z.compare]; unfold msize; destruct (Z.ltb_spec (Z.of_nat (length (data m))) 0); [lia|reflexivity]).
  assert (F : clamp (msize m) (Z.of_nat (length (data m))) = S (length rest)).
  { unfold clamp, msize. destruct (Z.ltb_spec (Z.of_nat (length (data m))) 0); [lia|]. destruct (Z.ltb_spec (Z.of_nat (length (data m))) 0); [lia|]. rewrite Z.ltb_irrefl, D. cbn [length]. lia. }
  rewrite E, F. cbn [length]. replace (S (length rest) + 1 - (0 + 1)) with (S (length rest)) by lia. cbn [seq List.find]. unfold match_at. rewrite D. cbn [skipn starts_with].
  rewrite Ascii.eqb_refl. reflexivity.
Qed.
Print Assumptions C46_before_start.
Example C46_bounds_example : mfind (mkMap (list_ascii_of_string "abcabc") 0) ["b"%char] (-3) 6 = 4%Z /\ mfind (mkMap (list_ascii_of_string "abcabc") 0) ["a"%char] (-9) 6 = 0%Z.
Proof. split; vm_compute; reflexivity. Qed.
