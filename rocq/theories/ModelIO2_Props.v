(** C03, C04, C05, C08, C11, C12, continued: the texts of the keys and the kinds of failure. *)
From Verif Require Import Common Common_Proofs Arr_Model Arr_Proofs ModelIO_Model ModelIO_Spec ModelIO_Proofs ModelIO2_Proofs ModelIO_Props.
Local Open Scope nat_scope.

(** C12: the text of every key, as it appears in the files *)
Theorem C12_texts s m : vmk_of_string s = Ok m <->
  s = match m with
      | N_ => "number of modes" | A_ => "number of surfaces" | E_ => "energies" | w_ => "frequencies"
      | G1_ => "linear couplings" | G2_ => "quadratic couplings" | G3_ => "cubic couplings" | G4_ => "quartic couplings" end%string.
Proof.
  split.
  - unfold vmk_of_string. destruct (find _ all_vmk) as [m'|] eqn:F; [|discriminate]. intros [= ->]. apply find_some in F. destruct F as [_ F].
    apply String.eqb_eq in F. destruct m; cbn in F; congruence.
  - intros ->. destruct m; reflexivity.
Qed.
Print Assumptions C12_texts.

Section Failures.
  Context {V : Type}.
  Variables (zero : V) (isz : V -> bool) (vint : V -> res Z) (of_int : Z -> V).

  (** C05: a file that does not exist, that is not JSON, or in which a list is ragged or contains text is not loaded *)
  Theorem C05_unreadable k (f : fs V) path :
    (f path = None -> load_new zero vint k f path = Raise OSError) /\
    (f path = Some CText -> load_new zero vint k f path = Raise ValueError) /\
    (forall a m b, f path = Some (CJson (a ++ (vmk_value m, JBadList) :: b)) ->
       NoDup (map fst (a ++ (vmk_value m, @JBadList V) :: b)) -> (forall s j, In (s, j) (a ++ b) -> exists m', s = vmk_value m') ->
       (forall s j, In (s, j) (a ++ b) -> exists z, j = JInt z) ->
       load_new zero vint k f path = Raise ValueError).
  Proof.
    unfold load_new, load_raw, read_json. split; [intros ->; reflexivity|]. split; [intros ->; reflexivity|].
    intros a m b -> ND K J. cbn [bind].
    set (o := a ++ (vmk_value m, JBadList) :: b) in *.
    assert (R : exists l, o = map (fun mj => (vmk_value (fst mj), snd mj)) l /\ NoDup (map fst l) /\ In (m, JBadList) l /\ (forall m' j, In (m', j) l -> j = JBadList \/ exists z, j = JInt z)).
    { assert (KO : forall s j, In (s, j) o -> exists m', s = vmk_value m' /\ (j = JBadList \/ exists z, j = JInt z) /\ (j = JBadList -> m' = m)).
      { intros s j Hin. unfold o in Hin. apply in_app_or in Hin. destruct Hin as [Hin|[[= <- <-]|Hin]].
        - destruct (K s j) as [m' E]; [apply in_or_app; auto|]. destruct (J s j) as [z Z]; [apply in_or_app; auto|]. exists m'. split; auto. split; eauto. intros ->. discriminate.
        - exists m. auto.
        - destruct (K s j) as [m' E]; [apply in_or_app; auto|]. destruct (J s j) as [z Z]; [apply in_or_app; auto|]. exists m'. split; auto. split; eauto. intros ->. discriminate. }
      assert (IM : In (vmk_value m, JBadList) o) by (unfold o; apply in_or_app; right; left; reflexivity).
      clearbody o. clear K J.
      assert (EX : exists l, o = map (fun mj : vmk * jval V => (vmk_value (fst mj), snd mj)) l).
      { clear IM ND. induction o as [|[s j] o IH]; [exists []; reflexivity|]. destruct IH as [l ->]. { intros s' j' H'. apply KO. right; auto. }
        destruct (KO s j (or_introl eq_refl)) as (m' & -> & _). exists ((m', j) :: l). reflexivity. }
      destruct EX as [l E]. exists l. split; auto. split; [|split].
      - rewrite E, map_map in ND. cbn in ND. apply (NoDup_map_inv vmk_value). rewrite map_map. exact ND.
      - rewrite E in IM. apply in_map_iff in IM. destruct IM as ([m' j'] & [= E1 E2] & Hin). subst j'. destruct m, m'; try discriminate; auto.
      - intros m' j Hin. destruct (KO (vmk_value m') j) as (m'' & _ & X & _); auto. rewrite E. apply in_map_iff. exists (m', j). auto. }
    destruct R as (l & -> & NDl & Hin & HJ). clear ND K J.
    rewrite map_map. cbn [fst snd].
    assert (ST : string_to_enum (map (fun x : vmk * jval V => (KS (vmk_value (fst x)), snd x)) l) = Ok (map (fun x => (KV (fst x), snd x)) l)) by (apply string_to_enum_ks; auto).
    rewrite ST. cbn [bind].
    assert (LV : load_values (map (fun x : vmk * jval V => (KV (fst x), snd x)) l) = Raise ValueError).
    { clear ST NDl. induction l as [|[m' j] l IH]; [destruct Hin|]. cbn [map load_values fst snd].
      destruct (HJ m' j (or_introl eq_refl)) as [->|[z ->]]; [reflexivity|]. cbn [load_value bind]. destruct Hin as [Hin|Hin]; [discriminate|].
      rewrite IH; auto. intros; eapply HJ; right; eauto. }
    rewrite LV. reflexivity.
  Qed.

  (** C05: a model whose number of modes or of surfaces is neither an integer nor a float is rejected *)
  Theorem C05_dimension_type k (d : mdict V) v : mget d (KV N_) = Some v -> (exists u, mget d (KV A_) = Some u) ->
    (exists a, v = PArr a) \/ v = PJson \/ v = PBad -> verify vint k d = Raise TypeError.
  Proof.
    intros H [u U] T. unfold verify, extract_dims, mitem, dmem. unfold mget in *. rewrite H, U. destruct T as [[a ->]|[->| ->]]; reflexivity.
  Qed.

  (** C04: an array without axes cannot be loaded into; a ragged list cannot be loaded *)
  Theorem C04_in_place o k (a : arr V) j : dget key_eqb o k = Some j ->
    (j = JBadList \/ j = JOther -> load_inplace_entry zero of_int o k (PArr a) = Raise ValueError) /\
    (shape a = [] -> (exists x, j = JFloat x) \/ (exists z, j = JInt z) -> load_inplace_entry zero of_int o k (PArr a) = Raise IndexError).
  Proof.
    intros H. unfold load_inplace_entry. rewrite H. split.
    - intros [->| ->]; reflexivity.
    - intros S [[x ->]|[z ->]]; cbn; rewrite S; reflexivity.
  Qed.

  (** C08: if the number of surfaces is a float (2.0, say) nothing is decoupled *)
  Theorem C08_float_surfaces (d : mdict V) x A N : dict_ok d -> valid vint Coupled A N d -> has d (KV A_) (PFloat x) ->
    (exists k a, In (k, PArr a) d /\ 2 <= length (shape a)) ->
    fill_offdiagonal zero vint d = Raise TypeError.
  Proof.
    intros D Va HA (k & a & Hin & L). unfold fill_offdiagonal.
    rewrite (proj2 (verify_spec vint Coupled d (proj1 D))) by eauto. cbn [bind].
    unfold mitem. unfold mget. rewrite (proj2 (dget_iff key_eqb key_eqb_eq d (KV A_) (PFloat x) (proj1 D))) by exact HA. cbn [bind].
    clear D Va HA. induction d as [|[k0 v0] d IH]; [destruct Hin|]. cbn [fill_loop].
    destruct Hin as [[= -> ->]|Hin].
    - unfold fill_entry. destruct (Nat.leb_spec 2 (length (shape a))); [reflexivity|lia].
    - rewrite (IH Hin). unfold fill_entry. destruct v0; try reflexivity. destruct (2 <=? length (shape _)); reflexivity.
  Qed.

  (** C08: one assignment model[..., x, y] = 0.0 *)
  Theorem C08_assign x y (a : arr V) s n m : wf_arr a -> shape a = s ++ [n; m] ->
    (~ (x < n /\ y < m) -> zero_last2 zero x y a = Raise IndexError) /\
    (x < n -> y < m -> exists r, zero_last2 zero x y a = Ok r /\ shape r = shape a /\ wf_arr r).
  Proof.
    intros W S. unfold zero_last2. rewrite S. rewrite app_length. cbn [length].
    replace (length s + 2 - 2) with (length s) by lia. replace (length s + 2 - 1) with (Datatypes.S (length s)) by lia.
    assert (E1 : nth (length s) (s ++ [n; m]) 0 = n) by (rewrite app_nth2, Nat.sub_diag by lia; reflexivity).
    assert (E2 : nth (Datatypes.S (length s)) (s ++ [n; m]) 0 = m) by (rewrite app_nth2 by lia; replace (Datatypes.S (length s) - length s) with 1 by lia; reflexivity).
    rewrite E1, E2. split.
    - intros H. destruct (Nat.ltb_spec x n), (Nat.ltb_spec y m); try reflexivity. exfalso. auto.
    - intros H1 H2. destruct (Nat.ltb_spec x n); [|lia]. destruct (Nat.ltb_spec y m); [|lia]. eexists. split; [reflexivity|]. split; [reflexivity|].
      unfold wf_arr. cbn [shape data]. rewrite map_length, combine_length. unfold wf_arr in W. rewrite S in W. rewrite W, indices_length. apply Nat.min_id.
  Qed.

  (** C11: copying a file *)
  Theorem C11_copy (f : fs V) src dst :
    (f src = None -> copyfile f src dst = (f, Raise OSError)) /\
    (forall c, f src = Some c -> src = dst -> copyfile f src dst = (f, Raise OtherException)) /\
    (forall c, f src = Some c -> src <> dst -> exists f', copyfile f src dst = (f', Ok tt) /\ f' dst = Some c /\ forall q, q <> dst -> f' q = f q).
  Proof.
    unfold copyfile. split; [intros ->; reflexivity|]. split; intros c ->.
    - intros ->. rewrite String.eqb_refl. reflexivity.
    - intros N. destruct (String.eqb_spec src dst); [contradiction|]. eexists. split; [reflexivity|]. unfold fs_write. split.
      + rewrite String.eqb_refl. reflexivity.
      + intros q Q. destruct (String.eqb_spec dst q), (String.eqb_spec q dst); congruence.
  Qed.
End Failures.
Print Assumptions C05_unreadable.
Print Assumptions C05_dimension_type.
Print Assumptions C04_in_place.
Print Assumptions C08_float_surfaces.
Print Assumptions C08_assign.
Print Assumptions C11_copy.

Example C05_unreadable_example :
  load_new 0%Z z_int Coupled (fun p => if String.eqb p "m" then Some (CJson [("number of modes", JInt 1); ("energies", JBadList)])%string else None) "m" = Raise ValueError /\
  fill_offdiagonal 0%Z z_int [(KV N_, PInt 1); (KV A_, PFloat 2%Z); (KV E_, PArr (mkArr [2; 2] [1; 2; 3; 4]%Z))] = Raise TypeError.
Proof. split; reflexivity. Qed.
(** C04: a saved model meets the hypotheses together with one of the same dimensions, and with one that has more modes *)
Example C04_example :
  (dict_ok ex_model /\ known_keys ex_model /\ serialisable ex_model /\ valid z_int Coupled 2 1 ex_model) /\
  snd (save z_isz z_int Coupled no_files "m" ex_model) = Ok tt /\
  snd (load_into 0%Z z_int z_of Coupled (fst (save z_isz z_int Coupled no_files "m" ex_model)) "m" ex_model) = Ok tt /\
  snd (load_into 0%Z z_int z_of Coupled (fst (save z_isz z_int Coupled no_files "m" ex_model)) "m" ex_three_modes) = Ok tt /\
  snd (load_into 0%Z z_int z_of Coupled (fst (save z_isz z_int Coupled no_files "m" ex_model)) "m"
    [(KV N_, PInt 1); (KV A_, PInt 3); (KV E_, PArr (mkArr [3; 3] [9; 9; 9; 9; 9; 9; 9; 9; 9]%Z))]) = Raise ValueError.
Proof. split; [exact ex_model_ok|]. repeat split; vm_compute; reflexivity. Qed.
