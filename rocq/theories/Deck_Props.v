(** C90: the input files of the calculations *)
From Coq Require Import Lia.
From Verif Require Import Common Common_Proofs PyStr_Model PyStr_Proofs FileName_Model FileName_Proofs FileStruct_Model FileStruct_Proofs ModelOp_Spec ModelOp_Model ModelOp2_Proofs ModelOp3_Proofs Exec_Model Json_Spec Julia_Spec Julia_Proofs Auto_Spec Auto_Proofs Zmat_Model Zmat_Spec Zmat_Proofs Deck_Model.
Local Open Scope string_scope.
Local Open Scope nat_scope.

(** a text without braces *)
Definition braceless (s : string) : Prop := ~ In "{"%char (chars s) /\ ~ In "}"%char (chars s).
(** a line that starts with a tab *)
Definition tabbed (s : string) : string := String "010"%char (String "009"%char s).
(** the block of keywords *)
Definition aces2 (basis : string) (options : list string) : string :=
  "*ACES2( BASIS=" ++ basis ++ "," ++ String.concat "" (map (fun o => tabbed (o ++ ",")) options) ++ tabbed ")" ++ String "010"%char "".
(** [fs'] is [fs] with the file [n] holding [text] *)
Definition written (fs fs' : files) (n text : string) : Prop := fs' n = Some text /\ forall m, m <> n -> fs' m = fs m.
(** the entries of the dictionary *)
Definition has_text (d : pdict) (k s : string) : Prop := dget String.eqb d k = Some (PText s).
Definition has_int (d : pdict) (k : string) (z : Z) : Prop := dget String.eqb d k = Some (PInt z).

Lemma braceless_no_brace s : braceless s -> no_brace s = true.
Proof.
  intros [A B]. unfold no_brace. apply all_chars_iff. intros c I. apply negb_true_iff, orb_false_iff. split; apply Ascii.eqb_neq; intros ->; [exact (A I)|exact (B I)].
Qed.
Lemma format_tail L g t : braceless g -> py_format_go L None (g ++ t) = do r <- py_format_go L None t; Ok (g ++ r).
Proof. intros B. apply format_go_literal. apply braceless_no_brace. exact B. Qed.
Lemma field_basis d : lookup_field d "basis:s" = match dget String.eqb d "basis" with None => Raise KeyError | Some v => render_value v "s" end.
Proof. reflexivity. Qed.
Lemma field_theory d : lookup_field d "theory:s" = match dget String.eqb d "theory" with None => Raise KeyError | Some v => render_value v "s" end.
Proof. reflexivity. Qed.
Lemma field_nip d : lookup_field d "nip:d" = match dget String.eqb d "nip" with None => Raise KeyError | Some v => render_value v "d" end.
Proof. reflexivity. Qed.
Lemma text_field d k s : has_text d k s -> match dget String.eqb d k with None => Raise KeyError | Some v => render_value v "s" end = Ok s.
Proof. unfold has_text. intros ->. reflexivity. Qed.
Lemma int_field d k z : has_int d k z -> match dget String.eqb d k with None => Raise KeyError | Some v => render_value v "d" end = Ok (dec z).
Proof. unfold has_int. intros ->. reflexivity. Qed.


Definition opt_options (z : zmat) : list string := match z with Cartesian _ => ["GEOM_OPT=RIC"] | Internal _ _ => [] end.
Lemma format_hf L z : braceless (zmat_get false z) ->
  py_format_go L None (hf_template z) = do b <- L "basis:s"; Ok (zmat_get false z ++ aces2 b ["CALC=SCF"; "MEMORY_SIZE=10GB"]).
Proof.
  intros B. unfold hf_template. rewrite format_tail by exact B. match goal with |- context [py_format_go L None ?T] => set (t := T) end.
  assert (T : py_format_go L None t = do b <- L "basis:s"; Ok (aces2 b ["CALC=SCF"; "MEMORY_SIZE=10GB"])).
  { vm_compute in t. subst t. cbn. destruct (L "basis:s") as [b|e]; reflexivity. }
  rewrite T. destruct (L "basis:s"); reflexivity.
Qed.
Lemma format_opt L z : braceless (zmat_get true z) ->
  py_format_go L None (opt_template z) =
  do b <- L "basis:s"; do t <- L "theory:s"; Ok (zmat_get true z ++ aces2 b (("CALC=" ++ t)%string :: "MEMORY_SIZE=20GB" :: opt_options z)).
Proof.
  intros B. unfold opt_template. rewrite format_tail by exact B. match goal with |- context [py_format_go L None ?T] => set (u := T) end.
  assert (T : py_format_go L None u = do b <- L "basis:s"; do t <- L "theory:s"; Ok (aces2 b (("CALC=" ++ t)%string :: "MEMORY_SIZE=20GB" :: opt_options z))).
  { destruct z; vm_compute in u; subst u; cbn; destruct (L "basis:s") as [b|e]; try reflexivity; destruct (L "theory:s") as [t|e]; try reflexivity; unfold aces2, tabbed; cbn; rewrite ?append_assoc; reflexivity. }
  rewrite T. destruct (L "basis:s"), (L "theory:s"); reflexivity.
Qed.
Lemma format_vib L z : braceless (zmat_get false z) ->
  py_format_go L None (vib_template z) =
  do b <- L "basis:s"; do t <- L "theory:s"; Ok (zmat_get false z ++ aces2 b ["CALC=" ++ t; "MEMORY_SIZE=20GB"; "VIB=FINDIF"]).
Proof.
  intros B. unfold vib_template. rewrite format_tail by exact B. match goal with |- context [py_format_go L None ?T] => set (u := T) end.
  assert (T : py_format_go L None u = do b <- L "basis:s"; do t <- L "theory:s"; Ok (aces2 b ["CALC=" ++ t; "MEMORY_SIZE=20GB"; "VIB=FINDIF"])).
  { vm_compute in u; subst u; cbn; destruct (L "basis:s") as [b|e]; try reflexivity; destruct (L "theory:s") as [t|e]; try reflexivity; unfold aces2, tabbed; cbn; rewrite ?append_assoc; reflexivity. }
  rewrite T. destruct (L "basis:s"), (L "theory:s"); reflexivity.
Qed.
Lemma format_ip L z : braceless (zmat_get false z) ->
  py_format_go L None (ip_template z) =
  do b <- L "basis:s"; do t <- L "theory:s"; do n <- L "nip:d";
  Ok (zmat_get false z ++ aces2 b ["CALC=" ++ t; "MEMORY_SIZE=10GB"; "IP_CALC=IP_EOMCC"] ++ String "010"%char "*mrcc_gen" ++ tabbed ("nip=" ++ n) ++ String "010"%char "*end" ++ String "010"%char "").
Proof.
  intros B. unfold ip_template. rewrite format_tail by exact B. match goal with |- context [py_format_go L None ?T] => set (u := T) end.
  assert (T : py_format_go L None u = do b <- L "basis:s"; do t <- L "theory:s"; do n <- L "nip:d";
    Ok (aces2 b ["CALC=" ++ t; "MEMORY_SIZE=10GB"; "IP_CALC=IP_EOMCC"] ++ String "010"%char "*mrcc_gen" ++ tabbed ("nip=" ++ n) ++ String "010"%char "*end" ++ String "010"%char "")).
  { vm_compute in u; subst u; cbn; destruct (L "basis:s") as [b|e]; try reflexivity; destruct (L "theory:s") as [t|e]; try reflexivity; destruct (L "nip:d") as [n|e]; try reflexivity; unfold aces2, tabbed; cbn; rewrite ?append_assoc; cbn; rewrite ?append_assoc; reflexivity. }
  rewrite T. destruct (L "basis:s"), (L "theory:s"), (L "nip:d"); reflexivity.
Qed.
Lemma name_hf name : format_name hf_in name = Ok (name ++ "_hartree_fock_nip.in").
Proof. reflexivity. Qed.
Lemma name_opt name : format_name opt_in name = Ok (name ++ "_opt.in").
Proof. reflexivity. Qed.
Lemma name_vib name : format_name vib_in name = Ok (name ++ "_vib.in").
Proof. reflexivity. Qed.
Lemma name_ip name : format_name ip_in name = Ok (name ++ "_eomcc_ip_{:d}.in").
Proof. reflexivity. Qed.
Lemma number_ip name z : braceless name -> format_number (name ++ "_eomcc_ip_{:d}.in") z = Ok (name ++ "_eomcc_ip_" ++ dec z ++ ".in").
Proof. intros B. unfold format_number. rewrite format_tail by exact B. reflexivity. Qed.
Lemma write_written fs n t : written fs (write fs n t) n t.
Proof. unfold written, write. rewrite String.eqb_refl. split; [reflexivity|]. intros m H. apply String.eqb_neq in H. rewrite H. reflexivity. Qed.

(** ** The decks of well-typed parameters *)
(** The first calculation: the geometry, the basis and SCF; nothing else of the parameters. *)
Theorem C90_hf fs name z d b :
  braceless (zmat_get false z) -> has_text d "basis" b ->
  exists fs', hf_deck fs name z d = (fs', Ok (name ++ "_hartree_fock_nip.in")) /\
  written fs fs' (name ++ "_hartree_fock_nip.in") (zmat_get false z ++ aces2 b ["CALC=SCF"; "MEMORY_SIZE=10GB"]).
Proof.
  intros B H. eexists. unfold hf_deck, write_deck, format_map. rewrite name_hf, format_hf by exact B.
  rewrite field_basis, (text_field _ _ _ H). cbn [bind]. split; [reflexivity|apply write_written].
Qed.
(** The optimisation keeps the stars of the geometry, and asks for RIC with cartesian coordinates. *)
Theorem C90_opt fs name z d b t :
  braceless (zmat_get true z) -> has_text d "basis" b -> has_text d "theory" t ->
  exists fs', opt_deck fs name z d = (fs', Ok (name ++ "_opt.in")) /\
  written fs fs' (name ++ "_opt.in")
    (zmat_get true z ++ aces2 b (match z with Internal _ _ => ["CALC=" ++ t; "MEMORY_SIZE=20GB"] | Cartesian _ => ["CALC=" ++ t; "MEMORY_SIZE=20GB"; "GEOM_OPT=RIC"] end)).
Proof.
  intros B H H'. eexists. unfold opt_deck, write_deck, format_map. rewrite name_opt, format_opt by exact B.
  rewrite field_basis, field_theory, (text_field _ _ _ H), (text_field _ _ _ H'). cbn [bind]. split; [reflexivity|]. destruct z; apply write_written.
Qed.
Theorem C90_vib fs name z d b t :
  braceless (zmat_get false z) -> has_text d "basis" b -> has_text d "theory" t ->
  exists fs', vib_deck fs name z d = (fs', Ok (name ++ "_vib.in")) /\
  written fs fs' (name ++ "_vib.in") (zmat_get false z ++ aces2 b ["CALC=" ++ t; "MEMORY_SIZE=20GB"; "VIB=FINDIF"]).
Proof.
  intros B H H'. eexists. unfold vib_deck, write_deck, format_map. rewrite name_vib, format_vib by exact B.
  rewrite field_basis, field_theory, (text_field _ _ _ H), (text_field _ _ _ H'). cbn [bind]. split; [reflexivity|apply write_written].
Qed.
(** The states: the number of states is both in the file and in its name. *)
Theorem C90_ip fs name z d b t n :
  braceless name -> braceless (zmat_get false z) -> has_text d "basis" b -> has_text d "theory" t -> has_int d "nip" n ->
  exists fs', ip_deck fs name z d = (fs', Ok (name ++ "_eomcc_ip_" ++ dec n ++ ".in")) /\
  written fs fs' (name ++ "_eomcc_ip_" ++ dec n ++ ".in")
    (zmat_get false z ++ aces2 b ["CALC=" ++ t; "MEMORY_SIZE=10GB"; "IP_CALC=IP_EOMCC"]
       ++ String "010"%char "*mrcc_gen" ++ tabbed ("nip=" ++ dec n) ++ String "010"%char "*end" ++ String "010"%char "").
Proof.
  intros B0 B H H' N. eexists. unfold ip_deck, write_deck, format_map, nip_name. rewrite name_ip. cbn [bind].
  unfold has_int in N. rewrite N, (number_ip name n B0), format_ip by exact B.
  rewrite field_basis, field_theory, field_nip, (text_field _ _ _ H), (text_field _ _ _ H'), (int_field _ _ _ N). cbn [bind]. split; [reflexivity|apply write_written].
Qed.
(** The calculation that prepares the vibronic couplings never gets an input file. *)
Theorem C90_prep fs name z d : prep_deck fs name z d = (fs, Raise AttributeError).
Proof. reflexivity. Qed.

(** ** Parameters that are missing or of the wrong type *)
(** what a parameter that has to be a text gives *)
Inductive text_fault (d : pdict) (k : string) : exn -> Prop :=
| no_text : dget String.eqb d k = None -> text_fault d k KeyError
| none_text : dget String.eqb d k = Some PNone -> text_fault d k TypeError
| int_text z : dget String.eqb d k = Some (PInt z) -> text_fault d k ValueError.
Inductive int_fault (d : pdict) (k : string) : exn -> Prop :=
| no_int : dget String.eqb d k = None -> int_fault d k KeyError
| none_int : dget String.eqb d k = Some PNone -> int_fault d k TypeError
| text_int s : dget String.eqb d k = Some (PText s) -> int_fault d k ValueError.
Lemma fault_field d k e : text_fault d k e -> match dget String.eqb d k with None => Raise KeyError | Some v => render_value v "s" end = Raise e.
Proof. intros [->| ->|z ->]; reflexivity. Qed.
(** A bad basis stops all the calculations before anything is written. *)
Theorem C90_bad_basis fs name z d e :
  text_fault d "basis" e ->
  (braceless (zmat_get false z) -> hf_deck fs name z d = (fs, Raise e) /\ vib_deck fs name z d = (fs, Raise e)) /\
  (braceless (zmat_get true z) -> opt_deck fs name z d = (fs, Raise e)) /\
  (braceless name -> braceless (zmat_get false z) -> forall n, has_int d "nip" n -> ip_deck fs name z d = (fs, Raise e)).
Proof.
  intros F. pose proof (fault_field _ _ _ F) as K.
  split; [|split].
  - intros B. unfold hf_deck, vib_deck, write_deck, format_map. rewrite name_hf, name_vib, format_hf, format_vib, field_basis, K by exact B. split; reflexivity.
  - intros B. unfold opt_deck, write_deck, format_map. rewrite name_opt, format_opt, field_basis, K by exact B. reflexivity.
  - intros B0 B n N. unfold ip_deck, write_deck, format_map, nip_name. rewrite name_ip. cbn [bind]. unfold has_int in N. rewrite N, (number_ip name n B0), format_ip, field_basis, K by exact B. reflexivity.
Qed.
(** A bad theory stops all but the first calculation. *)
Theorem C90_bad_theory fs name z d b e :
  has_text d "basis" b -> text_fault d "theory" e ->
  (braceless (zmat_get false z) -> vib_deck fs name z d = (fs, Raise e)) /\
  (braceless (zmat_get true z) -> opt_deck fs name z d = (fs, Raise e)) /\
  (braceless name -> braceless (zmat_get false z) -> forall n, has_int d "nip" n -> ip_deck fs name z d = (fs, Raise e)).
Proof.
  intros H F. pose proof (fault_field _ _ _ F) as K. pose proof (text_field _ _ _ H) as K'.
  split; [|split].
  - intros B. unfold vib_deck, write_deck, format_map. rewrite name_vib, format_vib, field_basis, K', field_theory, K by exact B. reflexivity.
  - intros B. unfold opt_deck, write_deck, format_map. rewrite name_opt, format_opt, field_basis, K', field_theory, K by exact B. reflexivity.
  - intros B0 B n N. unfold ip_deck, write_deck, format_map, nip_name. rewrite name_ip. cbn [bind]. unfold has_int in N. rewrite N, (number_ip name n B0), format_ip, field_basis, K', field_theory, K by exact B. reflexivity.
Qed.
(** A bad number of states stops the calculation of the states, whatever the rest. *)
Theorem C90_bad_nip fs name z d e :
  braceless name -> int_fault d "nip" e -> ip_deck fs name z d = (fs, Raise e).
Proof.
  intros B F. unfold ip_deck, write_deck, nip_name. rewrite name_ip. cbn [bind].
  destruct F as [F|F|s F]; rewrite F; [reflexivity| |]; rewrite (number_ip name 0 B); reflexivity.
Qed.
(** No calculation that fails writes anything: braces in the geometry or in the name included. *)
Theorem C90_nothing fs name z d e : forall deck, In deck [hf_deck; opt_deck; vib_deck; ip_deck; prep_deck] ->
  snd (deck fs name z d) = Raise e -> fst (deck fs name z d) = fs.
Proof.
  assert (W : forall n t, snd (write_deck fs n t d) = Raise e -> fst (write_deck fs n t d) = fs).
  { intros n t. unfold write_deck. destruct n; [|reflexivity]. destruct (format_map t d); [discriminate|reflexivity]. }
  intros deck [<-|[<-|[<-|[<-|[<-|[]]]]]]; try apply W. reflexivity.
Qed.

(** ** What has no influence *)
(** Two dictionaries that agree on the basis, the theory and the number of states give the same input files:
    the dropped orbitals, the frozen orbitals and the convergence thresholds, for all of which the user is asked
    or a file is searched, never reach any calculation. *)
Theorem C90_only fs name z d d' :
  (forall k, In k ["basis"; "theory"; "nip"] -> dget String.eqb d k = dget String.eqb d' k) ->
  braceless (zmat_get true z) -> braceless (zmat_get false z) ->
  hf_deck fs name z d = hf_deck fs name z d' /\ opt_deck fs name z d = opt_deck fs name z d' /\
  vib_deck fs name z d = vib_deck fs name z d' /\ ip_deck fs name z d = ip_deck fs name z d'.
Proof.
  intros A B1 B2.
  pose proof (A "basis" (or_introl eq_refl)) as A1. pose proof (A "theory" (or_intror (or_introl eq_refl))) as A2. pose proof (A "nip" (or_intror (or_intror (or_introl eq_refl)))) as A3.
  unfold hf_deck, opt_deck, vib_deck, ip_deck, write_deck, format_map, nip_name.
  rewrite !format_hf, !format_opt, !format_vib, !format_ip by assumption.
  rewrite !field_basis, !field_theory, !field_nip, A1, A2, A3. auto.
Qed.

(** ** Braces in the geometry *)
(** The geometry is a part of the template: a field in it is replaced, and doubled braces become single. *)
Theorem C90_field fs name d b s r t :
  braceless s -> braceless r -> has_text d "basis" b -> has_text d "theory" t ->
  forall fs' n, hf_deck fs name (Cartesian (s ++ "{theory:s}" ++ r)) d = (fs', n) ->
  fs' (name ++ "_hartree_fock_nip.in") = Some (s ++ t ++ r ++ aces2 b ["CALC=SCF"; "MEMORY_SIZE=10GB"]).
Proof.
  intros Bs Br H H' fs' n. unfold hf_deck, write_deck, format_map, hf_template. rewrite name_hf. cbn [zmat_get].
  rewrite !append_assoc, (format_tail _ s) by exact Bs.
  assert (F : forall u, py_format_go (lookup_field d) None ("{theory:s}" ++ u) = do v <- lookup_field d "theory:s"; do w <- py_format_go (lookup_field d) None u; Ok (v ++ w)) by reflexivity.
  rewrite F, field_theory, (text_field _ _ _ H'). cbn [bind]. rewrite (format_tail _ r) by exact Br.
  match goal with |- context [py_format_go _ None ?T] => set (u := T) end.
  assert (T : py_format_go (lookup_field d) None u = do b <- lookup_field d "basis:s"; Ok (aces2 b ["CALC=SCF"; "MEMORY_SIZE=10GB"])).
  { vm_compute in u. subst u. generalize (lookup_field d). intros L. cbn. destruct (L "basis:s"); reflexivity. }
  rewrite T, field_basis, (text_field _ _ _ H). cbn [bind]. intros E. injection E as <- _. unfold write. rewrite String.eqb_refl. reflexivity.
Qed.
(** letters *)
Definition letter (c : ascii) : Prop := (65 <= nat_of_ascii c <= 90 \/ 97 <= nat_of_ascii c <= 122)%nat.
Lemma letters_braceless f : Forall letter (chars f) -> braceless f.
Proof. intros F. rewrite Forall_forall in F. split; intros I; specialize (F _ I); unfold letter in F; cbn in F; lia. Qed.
Lemma letters_field d f : f <> "" -> Forall letter (chars f) -> dget String.eqb d f = None -> lookup_field d f = Raise KeyError.
Proof.
  intros N F G. unfold lookup_field. rewrite (split_char ":" f).
  2:{ rewrite Forall_forall in F. intros I. specialize (F _ I). unfold letter in F. cbn in F. lia. }
  destruct f as [|c f]; [congruence|]. change (String.eqb (String c f) "") with false. cbn [orb list_ascii_of_string forallb].
  inversion F as [|? ? H _]; subst. unfold digit at 1. unfold letter in H.
  replace ((48 <=? nat_of_ascii c) && (nat_of_ascii c <=? 57)) with false.
  2:{ symmetry. apply andb_false_iff. right. apply Nat.leb_gt. lia. }
  cbn [andb]. rewrite G. reflexivity.
Qed.
(** An unknown name between braces makes every calculation of the geometry fail. *)
Theorem C90_unknown_field fs name d s f r :
  braceless s -> f <> "" -> Forall letter (chars f) -> dget String.eqb d f = None ->
  hf_deck fs name (Cartesian (s ++ "{" ++ f ++ "}" ++ r)) d = (fs, Raise KeyError) /\
  opt_deck fs name (Cartesian (s ++ "{" ++ f ++ "}" ++ r)) d = (fs, Raise KeyError) /\
  vib_deck fs name (Cartesian (s ++ "{" ++ f ++ "}" ++ r)) d = (fs, Raise KeyError).
Proof.
  intros Bs N F G.
  assert (A : forall u, py_format_go (lookup_field d) None ((s ++ "{" ++ f ++ "}" ++ r) ++ u) = Raise KeyError).
  { intros u. rewrite !append_assoc, (format_tail _ s) by exact Bs. rewrite (format_go_field _ f) by (apply braceless_no_brace, letters_braceless, F).
    rewrite (letters_field d f N F G). reflexivity. }
  unfold hf_deck, opt_deck, vib_deck, write_deck, format_map, hf_template, opt_template, vib_template. rewrite name_hf, name_opt, name_vib. cbn [zmat_get].
  rewrite !A. auto.
Qed.
(** "The input file starts with the geometry" is false: doubled braces, which are fine in python templates, are halved. *)
Theorem C90_verbatim_refuted :
  ~ (forall fs name z d fs' n t, hf_deck fs name z d = (fs', Ok n) -> fs' n = Some t -> exists r, t = zmat_get false z ++ r).
Proof.
  intros H. specialize (H (fun _ => None) "m" (Cartesian "H {{0}} 0 0") [("basis", PText "DZP")] _ _ _ eq_refl eq_refl).
  destruct H as [r E]. vm_compute in E. discriminate.
Qed.

(** ** The names of the jobs *)
(** The queue is given the name of the input file without ".in", and the program writes that name with ".out0":
    for names without a dot this is the file that is read afterwards. *)
Theorem C90_job name n :
  free "." name ->
  format_name hf_out name = Ok (job_name (name ++ "_hartree_fock_nip.in") ++ ".out0") /\
  format_name opt_out name = Ok (job_name (name ++ "_opt.in") ++ ".out0") /\
  format_name vib_out name = Ok (job_name (name ++ "_vib.in") ++ ".out0") /\
  (braceless name -> forall d, has_int d "nip" n ->
     nip_name ip_out name d = Ok (job_name (name ++ "_eomcc_ip_" ++ dec n ++ ".in") ++ ".out0")).
Proof.
  intros F. assert (F' : all_chars (nofree ".") name = true) by (apply free_all; exact F).
  assert (J : forall a, all_chars (nofree ".") a = true -> job_name (name ++ a ++ ".in") = name ++ a).
  { intros a A. unfold job_name. rewrite (remove_free "." "in" name _ F'). rewrite (remove_free "." "in" a ".in" A).
    change (remove ".in" ".in") with "". rewrite append_nil_r. reflexivity. }
  pose proof (J "_hartree_fock_nip" eq_refl) as J1. pose proof (J "_opt" eq_refl) as J2. pose proof (J "_vib" eq_refl) as J3. cbn [String.append] in J1, J2, J3.
  rewrite J1, J2, J3. rewrite !append_assoc. split; [reflexivity|]. split; [reflexivity|]. split; [reflexivity|].
  intros B d N. unfold nip_name.
  change (format_name ip_out name) with (Ok (name ++ "_eomcc_ip_{:d}.out0")). cbn [bind]. unfold has_int in N. rewrite N.
  unfold format_number. rewrite format_tail by exact B.
  assert (D : all_chars (nofree ".") (dec n) = true).
  { eapply all_chars_impl; [|apply dec_int_chars]. intros c C. unfold nofree. apply negb_true_iff, Ascii.eqb_neq. intros ->. discriminate C. }
  assert (D' : all_chars (nofree ".") ("_eomcc_ip_" ++ dec n) = true) by exact D.
  pose proof (J _ D') as J4. rewrite append_assoc in J4. rewrite J4, !append_assoc. reflexivity.
Qed.
(** Every ".in" is removed, not only the last one: for other names another file is read than the one written. *)
Theorem C90_job_refuted : ~ (forall name, format_name opt_out name = Ok (job_name (name ++ "_opt.in") ++ ".out0")).
Proof. intros H. specialize (H "a.inner"). vm_compute in H. discriminate. Qed.

(** ** Examples *)
Definition ex_d : pdict := [("basis", PText "DZP"); ("theory", PText "CCSD"); ("nip", PInt 3%Z); ("DROPMO", PText "1-5")].
Definition ex_z : zmat := Cartesian (String "010"%char "O 0 0 0").
Lemma no_brace_braceless s : no_brace s = true -> braceless s.
Proof.
  intros H. unfold no_brace in H. rewrite all_chars_iff in H. split; intros I; specialize (H _ I); discriminate H.
Qed.
Ltac no_braces := apply no_brace_braceless; reflexivity.
Example C90_ip_ex : exists fs', ip_deck (fun _ => None) "h2o" ex_z ex_d = (fs', Ok "h2o_eomcc_ip_3.in") /\
  fs' "h2o_eomcc_ip_3.in" = Some (String "010"%char "O 0 0 0*ACES2( BASIS=DZP," ++ tabbed "CALC=CCSD," ++ tabbed "MEMORY_SIZE=10GB," ++ tabbed "IP_CALC=IP_EOMCC," ++ tabbed ")" ++ newline_s ++ newline_s ++ "*mrcc_gen" ++ tabbed "nip=3" ++ newline_s ++ "*end" ++ newline_s).
Proof.
  destruct (C90_ip (fun _ => None) "h2o" ex_z ex_d "DZP" "CCSD" 3%Z) as (fs' & E & W & _); [no_braces|no_braces|reflexivity..|].
  exists fs'. split; [exact E|]. refine (eq_trans W _). reflexivity.
Qed.
Example C90_hf_ex : exists fs', hf_deck (fun _ => None) "h2o" ex_z ex_d = (fs', Ok "h2o_hartree_fock_nip.in") /\
  written (fun _ => None) fs' "h2o_hartree_fock_nip.in" (String "010"%char "O 0 0 0" ++ aces2 "DZP" ["CALC=SCF"; "MEMORY_SIZE=10GB"]).
Proof. apply (C90_hf (fun _ => None) "h2o" ex_z ex_d "DZP"); [no_braces|reflexivity]. Qed.
Example C90_opt_ex : exists fs', opt_deck (fun _ => None) "h2o" (Internal "H" [("R", "1.0")]) ex_d = (fs', Ok "h2o_opt.in") /\
  written (fun _ => None) fs' "h2o_opt.in" (zmat_get true (Internal "H" [("R", "1.0")]) ++ aces2 "DZP" ["CALC=CCSD"; "MEMORY_SIZE=20GB"]).
Proof. apply (C90_opt (fun _ => None) "h2o" (Internal "H" [("R", "1.0")]) ex_d "DZP" "CCSD"); [no_braces|reflexivity..]. Qed.
Example C90_vib_ex : exists fs', vib_deck (fun _ => None) "h2o" ex_z ex_d = (fs', Ok "h2o_vib.in") /\
  written (fun _ => None) fs' "h2o_vib.in" (zmat_get false ex_z ++ aces2 "DZP" ["CALC=CCSD"; "MEMORY_SIZE=20GB"; "VIB=FINDIF"]).
Proof. apply (C90_vib (fun _ => None) "h2o" ex_z ex_d "DZP" "CCSD"); [no_braces|reflexivity..]. Qed.
Example C90_bad_basis_ex : hf_deck (fun _ => None) "h2o" ex_z [("theory", PText "CCSD")] = (fun _ => None, Raise KeyError).
Proof. refine (proj1 (proj1 (C90_bad_basis (fun _ => None) "h2o" ex_z [("theory", PText "CCSD")] KeyError _) _)); [apply no_text; reflexivity|no_braces]. Qed.
Example C90_bad_theory_ex : opt_deck (fun _ => None) "h2o" ex_z [("basis", PText "DZP"); ("theory", PNone)] = (fun _ => None, Raise TypeError).
Proof. refine (proj1 (proj2 (C90_bad_theory (fun _ => None) "h2o" ex_z [("basis", PText "DZP"); ("theory", PNone)] "DZP" TypeError _ _)) _); [reflexivity|apply none_text; reflexivity|no_braces]. Qed.
Example C90_bad_nip_ex : ip_deck (fun _ => None) "h2o" ex_z [("nip", PText "3")] = (fun _ => None, Raise ValueError).
Proof. apply C90_bad_nip; [no_braces|eapply text_int; reflexivity]. Qed.
Example C90_nothing_ex : snd (hf_deck (fun _ => None) "h2o" (Cartesian "{") ex_d) = Raise ValueError.
Proof. reflexivity. Qed.
(** with and without dropped orbitals *)
Example C90_only_ex : hf_deck (fun _ => None) "h2o" ex_z ex_d = hf_deck (fun _ => None) "h2o" ex_z (dset String.eqb ex_d "DROPMO" (PText "1-9")).
Proof. refine (proj1 (C90_only (fun _ => None) "h2o" ex_z ex_d (dset String.eqb ex_d "DROPMO" (PText "1-9")) _ _ _)); [|no_braces|no_braces]. intros k [<-|[<-|[<-|[]]]]; reflexivity. Qed.
Example C90_field_ex : exists fs', hf_deck (fun _ => None) "m" (Cartesian ("O 0 {theory:s} 0")) ex_d = (fs', Ok "m_hartree_fock_nip.in") /\
  fs' "m_hartree_fock_nip.in" = Some ("O 0 CCSD 0" ++ aces2 "DZP" ["CALC=SCF"; "MEMORY_SIZE=10GB"]).
Proof.
  eexists. split; [reflexivity|]. refine (C90_field (fun _ => None) "m" ex_d "DZP" "O 0 " " 0" "CCSD" _ _ eq_refl eq_refl _ (Ok "m_hartree_fock_nip.in") eq_refl); no_braces.
Qed.
Example C90_unknown_field_ex : hf_deck (fun _ => None) "m" (Cartesian "O 0 {R} 0") ex_d = (fun _ => None, Raise KeyError).
Proof.
  refine (proj1 (C90_unknown_field (fun _ => None) "m" ex_d "O 0 " "R" " 0" _ _ _ _)); [no_braces|discriminate| |reflexivity].
  constructor; [|constructor]. left. cbn. lia.
Qed.
Example C90_job_ex : format_name opt_out "h2o" = Ok (job_name ("h2o" ++ "_opt.in") ++ ".out0").
Proof. apply (C90_job "h2o" 3%Z). vm_compute. intuition discriminate. Qed.

Print Assumptions C90_hf.
Print Assumptions C90_opt.
Print Assumptions C90_vib.
Print Assumptions C90_ip.
Print Assumptions C90_prep.
Print Assumptions C90_bad_basis.
Print Assumptions C90_bad_theory.
Print Assumptions C90_bad_nip.
Print Assumptions C90_nothing.
Print Assumptions C90_only.
Print Assumptions C90_field.
Print Assumptions C90_unknown_field.
Print Assumptions C90_verbatim_refuted.
Print Assumptions C90_job.
Print Assumptions C90_job_refuted.
