(** C90: what a field between braces in the geometry becomes *)
From Coq Require Import Lia.
From Verif Require Import Common Common_Proofs PyStr_Model PyStr_Proofs FileName_Model FileName_Proofs FileStruct_Model FileStruct_Proofs ModelOp_Spec ModelOp_Model ModelOp2_Proofs Exec_Model Json_Spec Julia_Spec Julia_Proofs Auto_Spec Auto_Proofs Zmat_Model Zmat_Spec Json4_Proofs Deck_Model Deck_Props.
Local Open Scope string_scope.
Local Open Scope nat_scope.

(** a decimal digit *)
Definition decimal (c : ascii) : Prop := (48 <= nat_of_ascii c <= 57)%nat.
(** the field [name:spec] with the parameters [d] *)
Inductive becomes (d : pdict) (name spec : string) : res string -> Prop :=
| positional : Forall decimal (chars name) -> becomes d name spec (Raise ValueError)
| unknown : ~ Forall decimal (chars name) -> dget String.eqb d name = None -> becomes d name spec (Raise KeyError)
| a_text s : ~ Forall decimal (chars name) -> dget String.eqb d name = Some (PText s) -> spec = "" \/ spec = "s" -> becomes d name spec (Ok s)
| an_int z : ~ Forall decimal (chars name) -> dget String.eqb d name = Some (PInt z) -> spec = "" \/ spec = "d" -> becomes d name spec (Ok (dec z))
| a_none : ~ Forall decimal (chars name) -> dget String.eqb d name = Some PNone -> spec = "" -> becomes d name spec (Ok "None")
| wrong_text s : ~ Forall decimal (chars name) -> dget String.eqb d name = Some (PText s) -> spec = "d" \/ spec = "q" -> becomes d name spec (Raise ValueError)
| wrong_int z : ~ Forall decimal (chars name) -> dget String.eqb d name = Some (PInt z) -> spec = "s" \/ spec = "q" -> becomes d name spec (Raise ValueError)
| wrong_none : ~ Forall decimal (chars name) -> dget String.eqb d name = Some PNone -> spec <> "" -> becomes d name spec (Raise TypeError).

Lemma digits_dec name : forallb (fun c => match digit c with Some _ => true | None => false end) (chars name) = true <-> Forall decimal (chars name).
Proof.
  rewrite forallb_forall, Forall_forall. split; intros H c I; specialize (H c I); unfold digit, decimal in *.
  - destruct (48 <=? nat_of_ascii c) eqn:A; [|discriminate]. destruct (nat_of_ascii c <=? 57) eqn:B; [|discriminate]. apply Nat.leb_le in A, B. lia.
  - destruct (48 <=? nat_of_ascii c) eqn:A; [|apply Nat.leb_gt in A; lia]. destruct (nat_of_ascii c <=? 57) eqn:B; [reflexivity|apply Nat.leb_gt in B; lia].
Qed.
Lemma becomes_field d name spec v f :
  free ":" name -> free ":" spec -> (f = name ++ ":" ++ spec \/ (f = name /\ spec = "")) -> becomes d name spec v -> lookup_field d f = v.
Proof.
  intros Fn Fs Ef B.
  assert (S : exists specs, split ":" f = name :: specs /\ String.concat ":" specs = spec).
  { destruct Ef as [->|[-> ->]]; [|exists []; split; [apply (split_char ":"); exact Fn|reflexivity]].
    exists [spec]. rewrite (split_line name spec) by exact Fn. rewrite (split_char ":" spec) by exact Fs. split; reflexivity. }
  destruct S as (specs & S & C). unfold lookup_field. rewrite S, C.
  change (list_ascii_of_string name) with (chars name).
  assert (P : ~ Forall decimal (chars name) -> String.eqb name "" || forallb (fun c => match digit c with Some _ => true | None => false end) (chars name) = false).
  { intros N. apply orb_false_iff. split; [apply String.eqb_neq; intros ->; apply N; constructor|].
    apply not_true_is_false. intros X. apply N. apply digits_dec. exact X. }
  destruct B as [F|N G|s N G E|z N G E|N G E|s N G E|z N G E|N G E]; try rewrite (P N), G.
  - apply digits_dec in F. rewrite F, orb_true_r. reflexivity.
  - reflexivity.
  - destruct E as [-> | ->]; reflexivity.
  - destruct E as [-> | ->]; reflexivity.
  - subst spec. reflexivity.
  - destruct E as [-> | ->]; reflexivity.
  - destruct E as [-> | ->]; reflexivity.
  - unfold render_value. destruct (String.eqb spec "s"); [reflexivity|]. destruct (String.eqb spec "d"); [reflexivity|].
    apply String.eqb_neq in E. rewrite E. reflexivity.
Qed.
(** C90: a field in the geometry becomes the value of the parameter, or is the error of the calculation *)
Theorem C90_any_field fs name d s f k spec r b v :
  braceless s -> braceless r -> braceless k -> braceless spec -> free ":" k -> free ":" spec ->
  (f = k ++ ":" ++ spec \/ (f = k /\ spec = "")) -> has_text d "basis" b -> becomes d k spec v ->
  match v with
  | Ok t => exists fs', hf_deck fs name (Cartesian (s ++ "{" ++ f ++ "}" ++ r)) d = (fs', Ok (name ++ "_hartree_fock_nip.in")) /\
              written fs fs' (name ++ "_hartree_fock_nip.in") (s ++ t ++ r ++ aces2 b ["CALC=SCF"; "MEMORY_SIZE=10GB"])
  | Raise e => hf_deck fs name (Cartesian (s ++ "{" ++ f ++ "}" ++ r)) d = (fs, Raise e) /\
               opt_deck fs name (Cartesian (s ++ "{" ++ f ++ "}" ++ r)) d = (fs, Raise e) /\
               vib_deck fs name (Cartesian (s ++ "{" ++ f ++ "}" ++ r)) d = (fs, Raise e)
  end.
Proof.
  intros Bs Br Bk Bp Fk Fp Ef H B.
  assert (Bf : braceless f).
  { destruct Ef as [->|[-> _]]; [|exact Bk]. unfold braceless in *. rewrite !chars_app, !in_app_iff. cbn. intuition discriminate. }
  assert (A : forall u, py_format_go (lookup_field d) None ((s ++ "{" ++ f ++ "}" ++ r) ++ u) =
              do t <- v; do w <- py_format_go (lookup_field d) None u; Ok (s ++ t ++ r ++ w)).
  { intros u. rewrite !append_assoc, (format_tail _ s) by exact Bs. rewrite (format_go_field _ f) by (apply braceless_no_brace; exact Bf).
    rewrite (becomes_field d k spec v f Fk Fp Ef B). destruct v as [t|e]; [|reflexivity]. cbn [bind]. rewrite (format_tail _ r) by exact Br.
    destruct (py_format_go (lookup_field d) None u); reflexivity. }
  destruct v as [t|e].
  - eexists. unfold hf_deck, write_deck, format_map, hf_template. rewrite name_hf. cbn [zmat_get]. rewrite A. cbn [bind].
    change (py_format_go (lookup_field d) None _) with (py_format_go (lookup_field d) None (hf_template (Cartesian ""))).
    rewrite format_hf by (split; intros []). rewrite field_basis, (text_field _ _ _ H). cbn [bind zmat_get]. split; [reflexivity|]. apply write_written.
  - unfold hf_deck, opt_deck, vib_deck, write_deck, format_map, hf_template, opt_template, vib_template. rewrite name_hf, name_opt, name_vib. cbn [zmat_get].
    rewrite !A. auto.
Qed.
(** the number of states and a parameter that is None *)
Definition ex_dn : pdict := [("basis", PText "DZP"); ("nip", PInt 3%Z); ("x", PNone)].
Example C90_any_field_ex : (exists fs', hf_deck (fun _ => None) "m" (Cartesian "O {nip} 0") ex_dn = (fs', Ok "m_hartree_fock_nip.in")) /\
  becomes ex_dn "nip" "" (Ok "3") /\ becomes ex_dn "x" "" (Ok "None") /\ becomes ex_dn "x" "s" (Raise TypeError) /\ becomes ex_dn "12" "" (Raise ValueError) /\
  hf_deck (fun _ => None) "m" (Cartesian "O {0} 0") ex_dn = (fun _ => None, Raise ValueError).
Proof.
  assert (N : forall c s, (nat_of_ascii c <? 48) || (57 <? nat_of_ascii c) = true -> ~ Forall decimal (chars (String c s))).
  { intros c s H F. inversion F as [|? ? D _]; subst. unfold decimal in D. apply orb_prop in H. destruct H as [H|H]; apply Nat.ltb_lt in H; lia. }
  split; [eexists; reflexivity|]. split; [apply (an_int ex_dn "nip" "" 3%Z); [apply N; reflexivity|reflexivity|left; reflexivity]|].
  split; [apply a_none; [apply N; reflexivity|reflexivity..]|]. split; [apply wrong_none; [apply N; reflexivity|reflexivity|discriminate]|].
  split; [apply positional; repeat constructor; cbn; lia|reflexivity].
Qed.

Print Assumptions C90_any_field.
