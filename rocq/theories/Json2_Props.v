(** C42, C43, continued: reading of text that was not written by the program itself. *)
From Verif Require Import Common Common_Proofs PyStr_Model PyStr_Proofs Json_Model Json_Spec Json_Proofs.
Local Open Scope string_scope.
Local Open Scope nat_scope.

Definition quote : string := """".
Definition backslash : string := "\".
(** the position of a character in a text *)
Fixpoint place (c : ascii) (s : string) : option nat :=
  match s with
  | EmptyString => None
  | String d s' => if Ascii.eqb d c then Some 0 else match place c s' with Some n => Some (S n) | None => None end
  end.
Ltac all_chars c := destruct c as [[] [] [] [] [] [] [] []]; vm_compute; try reflexivity.

(** C42: a backslash and a character inside a text: eight escapes, everything else is rejected *)
Theorem C42_escapes c : loads (quote ++ backslash ++ String c "" ++ quote) =
  match place c (quote ++ backslash ++ "/bfnrt") with
  | Some n => Ok (JStr (String (nth n (map ascii_of_nat [34; 92; 47; 8; 12; 10; 13; 9]) zero) ""))
  | None => Raise ValueError
  end.
Proof. all_chars c. Qed.
Print Assumptions C42_escapes.

Lemma hex_place c : hex_value c = match place c "0123456789abcdef" with Some n => Some n | None => place c "0123456789ABCDEF" end.
Proof. all_chars c. Qed.
(** C42: a backslash, u and four hexadecimal digits, of either case (characters above 255 are not modelled) *)
Theorem C42_unicode a b : loads (quote ++ backslash ++ "u00" ++ String a (String b quote)) =
  let v c := match place c "0123456789abcdef" with Some n => Some n | None => place c "0123456789ABCDEF" end in
  match v a, v b with
  | Some x, Some y => Ok (JStr (String (ascii_of_nat (16 * x + y)) ""))
  | _, _ => Raise ValueError
  end.
Proof.
  cbv beta zeta. rewrite <- !hex_place.
  assert (S : scan_string (backslash ++ "u00" ++ String a (String b quote)) =
    match hex_value a, hex_value b with Some x, Some y => Ok (String (ascii_of_nat (x * 16 + y)) "", "") | _, _ => Raise ValueError end).
  { unfold backslash, quote. cbn [append scan_string].
    repeat match goal with |- context [nat_of_ascii (Ascii ?b0 ?b1 ?b2 ?b3 ?b4 ?b5 ?b6 ?b7)] =>
      let n := eval vm_compute in (nat_of_ascii (Ascii b0 b1 b2 b3 b4 b5 b6 b7)) in change (nat_of_ascii (Ascii b0 b1 b2 b3 b4 b5 b6 b7)) with n end.
    cbn [Nat.eqb Nat.ltb Nat.leb]. change (hex_value "0") with (Some 0). destruct (hex_value a), (hex_value b); reflexivity. }
  unfold loads. change (parse _ _) with (do r <- scan_string (backslash ++ "u00" ++ String a (String b quote)); Ok (JStr (fst r), snd r)). rewrite S.
  destruct (hex_value a) as [x|]; [|reflexivity]. destruct (hex_value b) as [y|]; [|reflexivity].
  cbn [bind fst snd skip_ws]. replace (x * 16 + y) with (16 * x + y) by lia. reflexivity.
Qed.
Print Assumptions C42_unicode.

(** C42: blanks are the space, the tabulator and the two ends of line; they may stand between any two parts and nothing else may *)
Theorem C42_blanks c :
  (loads (String c "null") = Ok JNull <-> In c (map ascii_of_nat [32; 9; 10; 13])) /\
  (In c (map ascii_of_nat [32; 9; 10; 13]) ->
   loads (let w := String c "" in w ++ "{" ++ w ++ quote ++ "a" ++ quote ++ w ++ ":" ++ w ++ "[" ++ w ++ "1" ++ w ++ "," ++ w ++ "2" ++ w ++ "]" ++ w ++ "," ++ w ++
            quote ++ "b" ++ quote ++ w ++ ":" ++ w ++ "[" ++ w ++ "]" ++ w ++ "," ++ w ++ quote ++ "c" ++ quote ++ w ++ ":" ++ w ++ "{" ++ w ++ "}" ++ w ++ "}" ++ w) =
     Ok (JObj [("a", JArr [JInt 1; JInt 2]); ("b", JArr []); ("c", JObj [])])).
Proof.
  split.
  - split; [|intros [<-|[<-|[<-|[<-|[]]]]]; reflexivity].
    intros H. assert (K : match loads (String c "null") with Ok JNull => existsb (Ascii.eqb c) (map ascii_of_nat [32; 9; 10; 13]) | _ => true end = true) by (clear H; all_chars c).
    rewrite H in K. apply existsb_exists in K. destruct K as (x & X & E). apply Ascii.eqb_eq in E. subst. auto.
  - intros [<-|[<-|[<-|[<-|[]]]]]; vm_compute; reflexivity.
Qed.
Print Assumptions C42_blanks.

(** C42: the keys of an object are texts in quotation marks *)
Theorem C42_keys c : (exists v, loads ("{" ++ String c ("a" ++ quote ++ ":1}")) = Ok v) <-> c = ascii_of_nat 34.
Proof.
  split; [|intros ->; eexists; reflexivity]. intros [v H].
  assert (K : match loads ("{" ++ String c ("a" ++ quote ++ ":1}")) with Ok _ => Ascii.eqb c (ascii_of_nat 34) | _ => true end = true) by (clear H; all_chars c).
  rewrite H in K. apply Ascii.eqb_eq in K. auto.
Qed.
Print Assumptions C42_keys.

Definition expected (e : exn) : Prop := e = ValueError \/ e = OtherException.
Lemma bind_raise {A B} (m : res A) (f : A -> res B) e : bind m f = Raise e -> m = Raise e \/ exists a, m = Ok a /\ f a = Raise e.
Proof. destruct m; cbn; eauto. intros [= ->]. auto. Qed.
Lemma scan_string_fails n : forall s e, String.length s <= n -> scan_string s = Raise e -> expected e.
Proof.
  induction n as [|n IH]; intros s e L; (destruct s as [|c s]; [intros [= <-]; left; reflexivity|]); cbn [String.length] in L; [lia|].
  cbn [scan_string]. destruct (nat_of_ascii c =? 34); [discriminate|]. destruct (nat_of_ascii c <? 32); [intros [= <-]; left; reflexivity|].
  assert (T : forall s' (k : string * string -> string) (r : string * string -> string * string), String.length s' <= n -> forall e, (do r0 <- scan_string s'; Ok (r r0)) = Raise e -> expected e).
  { intros s' _ r L' e' H. apply bind_raise in H. destruct H as [H|(a & _ & H)]; [eapply IH; eauto|discriminate]. }
  destruct (nat_of_ascii c =? 92).
  - destruct s as [|d s]; [intros [= <-]; left; reflexivity|]. cbn [String.length] in L. cbv zeta.
    repeat (destruct (nat_of_ascii d =? _); [try (intros H; refine (T s (fun _ => "") _ _ e H); lia)|]); [|intros [= <-]; left; reflexivity].
    destruct s as [|x1 [|x2 [|x3 [|x4 s]]]]; try (intros [= <-]; left; reflexivity). cbn [String.length] in L.
    destruct (hex_value x1), (hex_value x2), (hex_value x3), (hex_value x4); try (intros [= <-]; left; reflexivity).
    destruct ((n0 =? 0) && (n1 =? 0)); [|intros [= <-]; right; reflexivity].
    intros H. refine (T s (fun _ => "") _ _ e H). lia.
  - intros H. refine (T s (fun _ => "") _ _ e H). lia.
Qed.
Lemma parse_fails fuel :
  (forall s e, parse fuel s = Raise e -> expected e) /\ (forall s e, parse_items fuel s = Raise e -> expected e) /\
  (forall s acc e, parse_members fuel s acc = Raise e -> expected e).
Proof.
  induction fuel as [|f (I1 & I2 & I3)]; [repeat split; intros; right; cbn in *; congruence|]. split; [|split].
  - intros [|c s] e; cbn [parse]; [intros [= <-]; left; reflexivity|].
    destruct (nat_of_ascii c =? 34).
    { intros H. apply bind_raise in H. destruct H as [H|(a & _ & H)]; [eapply scan_string_fails; eauto|discriminate]. }
    destruct (Ascii.eqb c "[").
    { destruct (eat "]" (skip_ws s)); [discriminate|]. intros H. apply bind_raise in H. destruct H as [H|(a & _ & H)]; [eauto|discriminate]. }
    destruct (Ascii.eqb c "{").
    { destruct (eat "}" (skip_ws s)); [discriminate|]. intros H. apply bind_raise in H. destruct H as [H|(a & _ & H)]; [eauto|discriminate]. }
    destruct (scan_literal _ _); [discriminate|]. destruct (scan_number _); [discriminate|]. intros [= <-]. left. reflexivity.
  - intros s e. cbn [parse_items]. intros H. apply bind_raise in H. destruct H as [H|(a & _ & H)]; [eauto|].
    destruct (eat "]" _); [discriminate|]. destruct (eat "," _); [|injection H as <-; left; reflexivity].
    apply bind_raise in H. destruct H as [H|(b & _ & H)]; [eauto|discriminate].
  - intros s acc e. cbn [parse_members]. destruct s as [|c s]; [intros [= <-]; left; reflexivity|].
    destruct (nat_of_ascii c =? 34); [|intros [= <-]; left; reflexivity]. intros H. apply bind_raise in H. destruct H as [H|(a & _ & H)]; [eapply scan_string_fails; eauto|].
    destruct (eat ":" _); [|injection H as <-; left; reflexivity]. apply bind_raise in H. destruct H as [H|(b & _ & H)]; [eauto|]. cbv zeta in H.
    destruct (eat "}" _); [discriminate|]. destruct (eat "," _); [eauto|injection H as <-; left; reflexivity].
Qed.
(** C42: text that cannot be read is reported as ValueError (OtherException stands for characters above 255, which
    are not modelled, and for the bound on the recursion) *)
Theorem C42_rejected s e : loads s = Raise e -> e = ValueError \/ e = OtherException.
Proof.
  unfold loads. intros H. apply bind_raise in H. destruct H as [H|(a & _ & H)]; [exact (proj1 (parse_fails _) _ _ H)|].
  destruct (skip_ws (snd a)); [discriminate|]. injection H as <-. auto.
Qed.
Print Assumptions C42_rejected.
Example C42_rejected_example : map loads [""; "{"; "[1 2]"; "{1:2}"; "nul"; "1 1"; quote; "[1,]"; "-"]%list = map (fun _ => Raise ValueError) (seq 0 9).
Proof. vm_compute. reflexivity. Qed.

(** C43: a text that is not an object is not accepted as parameters *)
Theorem C43_not_an_object inv_kT divide files text v : decode text = Ok v -> (forall l, v <> JObj l) ->
  load_json_string inv_kT divide files text = Raise TypeError.
Proof.
  intros H N. unfold load_json_string. rewrite H. cbn [bind]. destruct v; try reflexivity. exfalso. eapply N. reflexivity.
Qed.
Print Assumptions C43_not_an_object.
Example C43_not_an_object_example inv_kT divide files : load_json_string inv_kT divide files "[1;2]" = Raise TypeError.
Proof. eapply C43_not_an_object; [reflexivity|]. intros l. discriminate. Qed.
