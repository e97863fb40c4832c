(** Proofs about the reference values *)
From Coq Require Import QArith Lia.
From Verif Require Import Common Common_Proofs PyStr_Model FileName_Model FileName_Proofs FileStruct_Model FileStruct_Proofs Json_Model Plot_Spec Plot_Model.
Local Open Scope string_scope.
Local Open Scope list_scope.
Local Open Scope nat_scope.

(** a dictionary with an entry for each temperature *)
Lemma dict_ok {V} (g : string -> res V) (v : string -> V) (ts : list Q) : (forall T, In T ts -> g (fmt2 T) = Ok (v (fmt2 T))) -> forall d0,
  exists d, for_res (fun d T => do x <- g (fmt2 T); Ok (dset String.eqb d (fmt2 T) x)) ts d0 = Ok d /\
    (forall n, (exists T, In T ts /\ n = fmt2 T) -> dget String.eqb d n = Some (v n)) /\
    (forall n, ~ (exists T, In T ts /\ n = fmt2 T) -> dget String.eqb d n = dget String.eqb d0 n).
Proof.
  induction ts as [|T ts IH]; intros H d0.
  - exists d0. split; [reflexivity|]. split; [intros n (T & [] & _)|reflexivity].
  - cbn [for_res]. rewrite (H T (or_introl eq_refl)). cbn [bind].
    destruct (IH (fun T' I => H T' (or_intror I)) (dset String.eqb d0 (fmt2 T) (v (fmt2 T)))) as (d & E & A & B). exists d. split; [exact E|]. split.
    + intros n (T' & [<-|I] & ->); [|apply A; eauto].
      destruct (in_dec string_dec (fmt2 T) (map fmt2 ts)) as [I|N].
      * apply A. apply in_map_iff in I. destruct I as (T' & E' & I). exists T'. auto.
      * rewrite B by (intros (T' & I & E'); apply N; rewrite E'; apply in_map; exact I). apply (dget_dset_same _ String.eqb_eq).
    + intros n N. rewrite B by (intros (T' & I & E'); apply N; exists T'; split; [right; exact I|exact E']).
      apply (dget_dset_other _ String.eqb_eq). intros ->. apply N. exists T. split; [left; reflexivity|reflexivity].
Qed.
Lemma dict_raise {V} (g : string -> res V) e (ts : list Q) T : In T ts -> g (fmt2 T) = Raise e -> (forall T', In T' ts -> (exists x, g (fmt2 T') = Ok x) \/ g (fmt2 T') = Raise e) -> forall d0,
  for_res (fun d T => do x <- g (fmt2 T); Ok (dset String.eqb d (fmt2 T) x)) ts d0 = Raise e.
Proof.
  induction ts as [|T' ts IH]; intros I G A d0; [destruct I|]. cbn [for_res].
  destruct (A T' (or_introl eq_refl)) as [[x X]|X]; rewrite X; [|reflexivity]. cbn [bind]. destruct I as [->|I]; [congruence|].
  apply IH; auto. intros T'' I'. apply A. right. exact I'.
Qed.

Lemma map_res_map {A B} (f : A -> res B) (g : A -> B) l : (forall x, In x l -> f x = Ok (g x)) -> map_res f l = Ok (map g l).
Proof. induction l as [|x l IH]; intros H; [reflexivity|]. cbn [map_res map]. rewrite (H x (or_introl eq_refl)), IH; [reflexivity|]. intros y I. apply H. right. exact I. Qed.

(** where the templates of a file structure lead *)
Definition sos_at (f : fstruct) (B : Z) (path : string) : Prop := exists dir, no_brace dir = true /\ t_sos_vib f = (dir ++ tpl_sos)%string /\ path = (dir ++ sos_file B)%string.
Lemma sos_at_path f B path : sos_at f B path -> sos_path f B = Ok path.
Proof. intros (dir & N & E & ->). unfold sos_path. rewrite E. apply format_sos. exact N. Qed.
Definition trotter_at (f : fstruct) (B : Z) (path : Z -> string) : Prop := exists dir, no_brace dir = true /\ t_trotter_vib f = (dir ++ tpl_trotter)%string /\ forall P, path P = (dir ++ trotter_file P B)%string.
Lemma trotter_at_path f B path P : trotter_at f B path -> trotter_path f P B = Ok (path P).
Proof. intros (dir & N & E & ->). unfold trotter_path. rewrite E. apply format_trotter. exact N. Qed.

(** ** the sum over states *)
(** the values [kvs] at some position are those of the last system so far whose file exists *)
Definition latest (content : nat -> option (list (string * json))) (m : nat) (kvs : list (string * json)) : Prop :=
  exists j, j <= m /\ content j = Some kvs /\ forall j', j < j' <= m -> content j' = None.
(** [d] is [kvs] for the given temperatures *)
Definition restricted (kvs : list (string * json)) (ts : list Q) (d : list (string * json)) : Prop :=
  (forall T, In T ts -> exists v, dget String.eqb kvs (fmt2 T) = Some v /\ dget String.eqb d (fmt2 T) = Some v) /\
  (forall n, ~ (exists T, In T ts /\ n = fmt2 T) -> dget String.eqb d n = None).
Lemma restrict_ok kvs ts : (forall T, In T ts -> dget String.eqb kvs (fmt2 T) <> None) ->
  exists d, for_res (fun d T => do v <- sub (JObj kvs) (fmt2 T); Ok (dset String.eqb d (fmt2 T) v)) ts [] = Ok d /\ restricted kvs ts d.
Proof.
  intros H. destruct (dict_ok (sub (JObj kvs)) (fun n => match dget String.eqb kvs n with Some v => v | None => JNull end) ts) with (d0 := @nil (string * json)) as (d & E & A & B).
  { intros T I. cbn [sub]. specialize (H T I). destruct (dget String.eqb kvs (fmt2 T)); [reflexivity|contradiction]. }
  exists d. split; [exact E|]. split; [|intros n N; rewrite B by exact N; reflexivity].
  intros T I. rewrite (A (fmt2 T)) by eauto. specialize (H T I). destruct (dget String.eqb kvs (fmt2 T)) as [v|]; [|contradiction]. exists v. auto.
Qed.

Section Sos.
  Variable fs : fsys string.
  Variable B : Z.
  Variable l : list (fstruct * params).
  Variable paths : nat -> string.
  Variable content : nat -> option (list (string * json)).
  Hypothesis PA : forall m f p, nth_error l m = Some (f, p) -> sos_at f B (paths m).
  Hypothesis CO : forall m, m < List.length l -> match content m with None => fs (paths m) = None | Some kvs => exists text, fs (paths m) = Some text /\ loads text = Ok (JObj kvs) end.
  Hypothesis FI : forall m f p, nth_error l m = Some (f, p) -> exists kvs, latest content m kvs /\ forall T, In T (lst_T p) -> dget String.eqb kvs (fmt2 T) <> None.

  Lemma sos_go r : forall done st acc, l = done ++ r -> List.length acc = List.length done ->
    match done with [] => st = None | _ => exists kvs, latest content (List.length done - 1) kvs /\ st = Some (JObj kvs) end ->
    exists st' ds, for_res (load_sos_turn fs B) r (st, acc) = Ok (st', acc ++ ds) /\ List.length ds = List.length r /\
      forall m f p, nth_error r m = Some (f, p) -> exists kvs d, nth_error ds m = Some d /\ latest content (List.length done + m) kvs /\ restricted kvs (lst_T p) d.
  Proof.
    induction r as [|[f p] r IH]; intros done st acc E L H.
    - exists st, []. rewrite app_nil_r. split; [reflexivity|]. split; [reflexivity|]. intros m f p N. destruct m; discriminate.
    - assert (N : nth_error l (List.length done) = Some (f, p)) by (rewrite E, nth_error_app2, Nat.sub_diag; auto).
      assert (LT : List.length done < List.length l) by (apply nth_error_Some; congruence).
      destruct (FI _ _ _ N) as (kvs & LA & CV). pose proof (CO _ LT) as C.
      assert (S1 : exists st1, match fs (paths (List.length done)) with None => Ok st | Some text => do j <- loads text; Ok (Some j) end = Ok st1 /\ st1 = Some (JObj kvs)).
      { destruct LA as (j & J1 & J2 & J3). destruct (content (List.length done)) as [kvs'|] eqn:CD.
        - destruct C as (text & -> & ->). eexists. split; [reflexivity|]. destruct (Nat.eq_dec j (List.length done)) as [->|NE]; [congruence|]. rewrite J3 in CD by lia. discriminate.
        - rewrite C. eexists. split; [reflexivity|]. assert (j <> List.length done) by (intros ->; congruence).
          destruct done as [|y done]; [cbn in *; lia|]. destruct H as (kvs' & (j' & J1' & J2' & J3') & ->). cbn [List.length] in *.
          assert (j = j'). { destruct (Nat.lt_trichotomy j j') as [Lt|[Eq|Gt]]; [|exact Eq|]. - rewrite J3 in J2' by lia. discriminate. - rewrite J3' in J2 by lia. discriminate. }
          subst j'. congruence. }
      destruct S1 as (st1 & S1 & ->). destruct (restrict_ok kvs (lst_T p) CV) as (d & D1 & D2).
      assert (T : load_sos_turn fs B (st, acc) (f, p) = Ok (Some (JObj kvs), acc ++ [d])).
      { unfold load_sos_turn. cbn [fst snd]. rewrite (sos_at_path _ _ _ (PA _ _ _ N)). cbn [bind]. rewrite S1. cbn [bind]. rewrite D1. reflexivity. }
      cbn [for_res]. rewrite T. cbn [bind].
      destruct (IH (done ++ [(f, p)]) (Some (JObj kvs)) (acc ++ [d])) as (st' & ds & E1 & L1 & H1).
      + rewrite <- app_assoc. exact E.
      + rewrite !app_length. cbn. lia.
      + rewrite app_length. cbn. replace (List.length done + 1 - 1) with (List.length done) by lia. destruct (done ++ [(f, p)]) eqn:X; [destruct done; discriminate|]. exists kvs. auto.
      + exists st', (d :: ds). rewrite <- app_assoc in E1. cbn [app] in E1. split; [exact E1|]. split; [cbn; lia|].
        intros m f' p' M. destruct m as [|m].
        * injection M as <- <-. exists kvs, d. rewrite Nat.add_0_r. auto.
        * cbn in M. destruct (H1 m f' p' M) as (kvs' & d' & A1 & A2 & A3). exists kvs', d'. rewrite app_length in A2. cbn in A2. replace (List.length done + S m) with (List.length done + 1 + m) by lia. auto.
  Qed.
End Sos.

(** ** the Trotter values *)
(** the value for a temperature and a key, None if there is none *)
Definition trotter_entry (fs : fsys string) (path : string) (T : Q) (vals : list (string * json)) : Prop :=
  exists text data, fs path = Some text /\ loads text = Ok (JObj data) /\ dget String.eqb data (fmt2 T) = Some (JObj vals).
Definition trotter_value (fs : fsys string) (path : string) (T : Q) (key : string) (v : json) : Prop :=
  (exists vals, trotter_entry fs path T vals /\ dget String.eqb vals key = Some v) \/
  (~ (exists vals x, trotter_entry fs path T vals /\ dget String.eqb vals key = Some x)) /\ v = JNull.

Lemma entry_one fs path T vals vals' : trotter_entry fs path T vals -> trotter_entry fs path T vals' -> vals = vals'.
Proof. intros (t & d & A & B & C) (t' & d' & A' & B' & C'). congruence. Qed.
Lemma values_ok fs path T : exists v, trotter_values fs path T = map v trotter_keys /\ forall key, trotter_value fs path T key (v key).
Proof.
  unfold trotter_values, load_json.
  destruct (fs path) as [text|] eqn:F.
  2:{ exists (fun _ => JNull). split; [reflexivity|]. intros key. right. split; [|reflexivity]. intros (vals & x & (t & d & A & _) & _). congruence. }
  destruct (loads text) as [data|e] eqn:L.
  2:{ exists (fun _ => JNull). split; [reflexivity|]. intros key. right. split; [|reflexivity]. intros (vals & x & (t & d & A & A' & _) & _). congruence. }
  cbn [bind]. destruct (sub data (fmt2 T)) as [v|e] eqn:S'.
  2:{ exists (fun _ => JNull). split; [reflexivity|]. intros key. right. split; [|reflexivity]. intros (vals & x & (t & d & A & A' & A'') & _). assert (data = JObj d) by congruence. subst data. cbn [sub] in S'. rewrite A'' in S'. discriminate. }
  destruct v as [| | | | | |vals].
  1-6: exists (fun _ => JNull); (split; [reflexivity|]); intros key; right; (split; [|reflexivity]); intros (vals & x & (t & d & A & A' & A'') & _);
       assert (data = JObj d) by congruence; subst data; cbn [sub] in S'; rewrite A'' in S'; discriminate.
  destruct data as [| | | | | |d]; try discriminate. cbn [sub] in S'. destruct (dget String.eqb d (fmt2 T)) as [x|] eqn:G; [|discriminate]. injection S' as ->.
  assert (EN : trotter_entry fs path T vals) by (exists text, d; auto).
  exists (fun key => match dget String.eqb vals key with Some x => x | None => JNull end). split; [reflexivity|]. intros key.
  destruct (dget String.eqb vals key) as [x|] eqn:K; [left; exists vals; auto|].
  right. split; [|reflexivity]. intros (vals' & x & EN' & K'). rewrite (entry_one _ _ _ _ _ EN EN') in K. congruence.
Qed.

Section Trotter.
  Variable F : Type.
  Variable nan : F.
  Variable of_int : Z -> res F.
  Variable of_repr : string -> F.
  Variable of_text : string -> res F.
  Notation to_f64 := (to_f64 F nan of_int of_repr of_text).
  Variable fs : fsys string.
  Variable f : fstruct.
  Variable p : params.
  Variable B : Z.
  Variable path : Z -> string.
  Hypothesis PA : trotter_at f B path.

  Lemma column_ok T (num : Z -> string -> F) :
    (forall P key v, In P (lst_P p) -> In key ["Z_trotter"; "E_trotter"; "SvN_trotter"; "S2_trotter"] -> trotter_value fs (path P) T key v -> to_f64 v = Ok (num P key)) ->
    trotter_column F nan of_int of_repr of_text fs f p B T = Ok (map (fun key => (key, map (fun P => num P key) (lst_P p))) ["Z_trotter"; "E_trotter"; "SvN_trotter"; "S2_trotter"]).
  Proof.
    intros H. unfold trotter_column. change trotter_keys with ["Z_trotter"; "E_trotter"; "SvN_trotter"; "S2_trotter"].
    rewrite (map_res_map _ (fun P => trotter_values fs (path P) T)) by (intros P I; rewrite (trotter_at_path _ _ _ _ PA); reflexivity). cbn [bind].
    assert (G : forall i key, nth_error ["Z_trotter"; "E_trotter"; "SvN_trotter"; "S2_trotter"] i = Some key ->
      map_res (fun row => do v <- item row i; to_f64 v) (map (fun P => trotter_values fs (path P) T) (lst_P p)) = Ok (map (fun P => num P key) (lst_P p))).
    { intros i key N. induction (lst_P p) as [|P ps IH]; [reflexivity|]. cbn [map map_res].
      destruct (values_ok fs (path P) T) as (v & E & V). rewrite E. unfold item at 1. rewrite nth_error_map. change trotter_keys with ["Z_trotter"; "E_trotter"; "SvN_trotter"; "S2_trotter"]. rewrite N. cbn [option_map bind].
      rewrite (H P key (v key) (or_introl eq_refl) (nth_error_In _ _ N) (V key)). cbn [bind]. rewrite IH by (intros P' key' v' I; apply H; right; exact I). reflexivity. }
    cbn [List.length seq combine map_res fst snd]. rewrite (G 0 "Z_trotter"), (G 1 "E_trotter"), (G 2 "SvN_trotter"), (G 3 "S2_trotter") by reflexivity. reflexivity.
  Qed.
End Trotter.

Lemma dict_of {V} (g : Q -> res V) (v : Q -> V) (ts : list Q) : (forall T, In T ts -> g T = Ok (v T)) -> (forall T T', fmt2 T = fmt2 T' -> g T = g T') -> forall d0,
  exists d, for_res (fun d T => do x <- g T; Ok (dset String.eqb d (fmt2 T) x)) ts d0 = Ok d /\
    (forall T, In T ts -> dget String.eqb d (fmt2 T) = Some (v T)) /\
    (forall n, ~ (exists T, In T ts /\ n = fmt2 T) -> dget String.eqb d n = dget String.eqb d0 n).
Proof.
  intros H X. induction ts as [|T ts IH]; intros d0.
  - exists d0. split; [reflexivity|]. split; [intros T []|reflexivity].
  - cbn [for_res]. rewrite (H T (or_introl eq_refl)). cbn [bind].
    destruct (IH (fun T' I => H T' (or_intror I)) (dset String.eqb d0 (fmt2 T) (v T))) as (d & E & A & B). exists d. split; [exact E|]. split.
    + intros T' [<-|I]; [|apply A; exact I].
      destruct (in_dec string_dec (fmt2 T) (map fmt2 ts)) as [I|N].
      * apply in_map_iff in I. destruct I as (T' & E' & I). rewrite <- E', (A T' I). pose proof (H T' (or_intror I)) as H1. rewrite (X T' T E'), (H T (or_introl eq_refl)) in H1. congruence.
      * rewrite B by (intros (T' & I & E'); apply N; rewrite E'; apply in_map; exact I). apply (dget_dset_same _ String.eqb_eq).
    + intros n N. rewrite B by (intros (T' & I & E'); apply N; exists T'; split; [right; exact I|exact E']).
      apply (dget_dset_other _ String.eqb_eq). intros ->. apply N. exists T. split; [left; reflexivity|reflexivity].
Qed.
Lemma column_same F nan of_int of_repr of_text fs f p B T T' : fmt2 T = fmt2 T' ->
  trotter_column F nan of_int of_repr of_text fs f p B T = trotter_column F nan of_int of_repr of_text fs f p B T'.
Proof. intros E. unfold trotter_column, trotter_values. rewrite E. reflexivity. Qed.
