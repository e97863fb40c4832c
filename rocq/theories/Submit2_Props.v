(** C96: the submission of the calculations of the artificial systems *)
From Coq Require Import QArith Lia.
From Verif Require Import Common Common_Proofs PyStr_Model PyStr_Proofs Json_Model Json_Spec FileName_Model FileName_Proofs FileStruct_Model FileStruct_Proofs Julia_Model Julia_Spec Julia_Proofs Julia_Props Julia2_Props Submit_Model Submit_Spec Submit_Props Submit2_Model Submit2_Spec.
Local Open Scope string_scope.
Local Open Scope nat_scope.

(** ** the loop over the numbers of beads *)
Lemma bead_loop_spec text where_ world f B T : (forall t, coupled t -> target f t = Ok (where_ t)) -> (forall t T, coupled t -> job_command f t T = Ok (text t T)) ->
  forall Ps k cmd, fst (bead_loop world f B T k cmd Ps) = k + length Ps /\
     ((all_finished where_ world f B T k Ps /\ bead_loop world f B T k cmd Ps = (k + length Ps, Ok cmd)) \/
      (exists P, last_missing where_ world f B T k Ps P /\ bead_loop world f B T k cmd Ps = (k + length Ps, Ok (Some (text (Trotter P B) T)))))
  \/ exists e i P, snd (bead_loop world f B T k cmd Ps) = Raise e /\ nth_error Ps i = Some P /\ unreadable (world (k + i)) f (where_ (Trotter P B)).
Proof.
  intros W C. induction Ps as [|P Ps IH]; intros k cmd; cbn [bead_loop].
  - left. rewrite Nat.add_0_r. split; [reflexivity|]. left. split; [intros [|i] Q X; discriminate|reflexivity].
  - rewrite (W (Trotter P B) I). cbn [bind]. destruct (already_spec (world k) f (where_ (Trotter P B)) T) as (A & M & U & [K|[K|K]]).
    + rewrite (A K). destruct (IH (S k) cmd) as [(L & [(F & E)|(P' & F & E)])|(e & i & P' & E & N & X)].
      * left. rewrite E. cbn [fst length]. rewrite Nat.add_succ_r. split; [reflexivity|]. left. split; [|reflexivity].
        intros [|i] Q X; [injection X as <-; rewrite Nat.add_0_r; exact K|]. rewrite Nat.add_succ_r. exact (F i Q X).
      * left. rewrite E. cbn [fst length]. rewrite Nat.add_succ_r. split; [reflexivity|]. right. exists P'. split; [|reflexivity].
        destruct F as (Ps1 & Ps2 & -> & F1 & F2 & F3). exists (P :: Ps1), Ps2. cbn [length]. rewrite Nat.add_succ_r. split; [reflexivity|]. split; [exact F1|]. split; [exact F2|].
        intros [|i] Q X; [injection X as <-; rewrite Nat.add_0_r; left; exact K|]. rewrite Nat.add_succ_r. exact (F3 i Q X).
      * right. exists e, (S i), P'. rewrite Nat.add_succ_r. auto.
    + rewrite (M K), (C (Trotter P B) T I). destruct (IH (S k) (Some (text (Trotter P B) T))) as [(L & [(F & E)|(P' & F & E)])|(e & i & P' & E & N & X)].
      * left. rewrite E. cbn [fst length]. rewrite Nat.add_succ_r. split; [reflexivity|]. right. exists P. split; [|reflexivity].
        exists [], Ps. cbn [length app]. rewrite Nat.add_0_r. split; [reflexivity|]. split; [exact K|]. split; [rewrite Nat.add_1_r; exact F|]. intros [|i] Q X; discriminate.
      * left. rewrite E. cbn [fst length]. rewrite Nat.add_succ_r. split; [reflexivity|]. right. exists P'. split; [|reflexivity].
        destruct F as (Ps1 & Ps2 & -> & F1 & F2 & F3). exists (P :: Ps1), Ps2. cbn [length]. rewrite Nat.add_succ_r. split; [reflexivity|]. split; [exact F1|]. split; [exact F2|].
        intros [|i] Q X; [injection X as <-; rewrite Nat.add_0_r; right; exact K|]. rewrite Nat.add_succ_r. exact (F3 i Q X).
      * right. exists e, (S i), P'. rewrite Nat.add_succ_r. auto.
    + right. destruct (U K) as [e E]. rewrite E. exists e, 0, P. rewrite Nat.add_0_r. auto.
Qed.
Lemma pair_loop_spec text where_ world f Ps : (forall t, coupled t -> target f t = Ok (where_ t)) -> (forall t T, coupled t -> job_command f t T = Ok (text t T)) ->
  forall l k cmd, art_runs text where_ world f Ps k cmd l (fst (pair_loop world f Ps k cmd l)) (snd (pair_loop world f Ps k cmd l)).
Proof.
  intros W C. induction l as [|[B T] l IH]; intros k cmd; cbn [pair_loop]; [constructor|].
  destruct (bead_loop_spec text where_ world f B T W C Ps k cmd) as [(L & [(F & E)|(P & F & E)])|(e & i & P & E & N & X)].
  - rewrite E. destruct cmd as [c|]; cbn [fst snd]; [apply art_again; auto|apply art_unbound; auto].
  - rewrite E. cbn [fst snd]. apply art_new; auto.
  - destruct (bead_loop world f B T k cmd Ps) as [k' r] eqn:Q. cbn [snd] in E. subst r. cbn [fst snd]. eapply art_stop; eauto.
Qed.

(** C96: Trotter products: one command for every size and temperature, of the last missing number of beads *)
Theorem C96_trotter cwd root d r hv hr world Ts Bs Ps : no_brace root = true -> no_brace (abspath cwd root) = true ->
  exists pairs, length pairs = length Bs * length Ts /\
    (forall i j B T, nth_error Bs i = Some B -> nth_error Ts j = Some T -> nth_error pairs (i * length Ts + j) = Some (B, T)) /\
    art_runs (job_text (abspath cwd root) d r) (results_at root d r) world (hashed cwd root d r hv hr) Ps 0 None pairs
      (fst (art_trotter_results world (hashed cwd root d r hv hr) Ts Bs Ps)) (snd (art_trotter_results world (hashed cwd root d r hv hr) Ts Bs Ps)).
Proof.
  intros N1 N2. exists (flat_map (fun B => map (fun T => (B, T)) Ts) Bs). split; [|split].
  - apply flat_length. intros B. apply map_length.
  - intros i j B T E1 E2. rewrite (flat_nth (fun B => map (fun T => (B, T)) Ts) (length Ts)) with (a := B); [|intros a; apply map_length|exact E1|apply nth_error_Some; congruence].
    exact (map_nth_error (fun T => (B, T)) _ _ E2).
  - apply pair_loop_spec; [intros t _; apply hashed_target; exact N1|intros t T K; apply hashed_text; assumption].
Qed.
(** C96: the number of commands does not depend on the numbers of beads *)
Theorem C96_one_for_each text where_ world f Ps k prev l cs : art_runs text where_ world f Ps k prev l cs (Ok tt) ->
  length cs = length l /\
  forall i B T, nth_error l i = Some (B, T) ->
    (exists P, last_missing where_ world f B T (k + i * length Ps) Ps P /\ nth_error cs i = Some (text (Trotter P B) T)) \/
    (all_finished where_ world f B T (k + i * length Ps) Ps /\ nth_error cs i = match i with O => prev | S j => nth_error cs j end).
Proof.
  intros R. remember (Ok tt) as o eqn:O. induction R as [k prev|k prev B T P l cs r L R IH|k c B T l cs r F R IH|k B T l F|k prev B T l i P e N U]; try discriminate O.
  - split; [reflexivity|]. intros [|i]; discriminate.
  - destruct (IH O) as [IH1 IH2]. split; [cbn; congruence|]. intros [|i] B' T' E.
    + injection E as <- <-. left. exists P. rewrite Nat.add_0_r. auto.
    + cbn [nth_error] in E. replace (k + S i * length Ps) with (k + length Ps + i * length Ps) by lia. destruct (IH2 i B' T' E) as [X|(X & Y)]; [left; exact X|right; split; [exact X|]].
      cbn [nth_error]. rewrite Y. destruct i; reflexivity.
  - destruct (IH O) as [IH1 IH2]. split; [cbn; congruence|]. intros [|i] B' T' E.
    + injection E as <- <-. right. rewrite Nat.add_0_r. auto.
    + cbn [nth_error] in E. replace (k + S i * length Ps) with (k + length Ps + i * length Ps) by lia. destruct (IH2 i B' T' E) as [X|(X & Y)]; [left; exact X|right; split; [exact X|]].
      cbn [nth_error]. rewrite Y. destruct i; reflexivity.
Qed.
Lemma finished_not_missing fs f p T : finished fs f p T -> missing fs f p T -> False.
Proof. intros F M. destruct (already_spec fs f p T) as (A & B & _). rewrite (A F) in B. specialize (B M). discriminate. Qed.
Lemma finished_not_unreadable fs f p T : finished fs f p T -> unreadable fs f p -> False.
Proof. intros F M. destruct (already_spec fs f p T) as (A & _ & B & _). destruct (B M) as [e E]. rewrite (A F) in E. discriminate. Qed.
(** C96: if the first size and temperature are done, the script fails and starts nothing, whatever else is missing *)
Theorem C96_first_done text where_ world f Ps k B T l cs r : all_finished where_ world f B T k Ps ->
  art_runs text where_ world f Ps k None ((B, T) :: l) cs r -> cs = [] /\ r = Raise UnboundLocalError.
Proof.
  intros F R. inversion R as [|? ? ? ? P ? cs' ? (Ps1 & Ps2 & -> & M & _)|? ? ? ? ? ? ? F' R'|? ? ? ? F'|? ? ? ? ? i P e N U]; subst.
  - exfalso. refine (finished_not_missing _ _ _ _ (F (length Ps1) P _) M). rewrite nth_error_app2, Nat.sub_diag by lia. reflexivity.
  - auto.
  - exfalso. exact (finished_not_unreadable _ _ _ _ (F i P N) U).
Qed.
(** one size and temperature: the script is run, then the command it started, and so on *)
Inductive rounds (py_float : string -> res string) (bin cwd root : string) (d r : Z) (hv hr : string) (g : fstruct) (B : Z) (T : Q) (Ps : list Z) : nat -> fsys string -> fsys string -> Prop :=
| rounds_end fs : rounds py_float bin cwd root d r hv hr g B T Ps 0 fs fs
| rounds_more n fs P T' bt out err fs1 fs2 :
    art_trotter_results (fun _ => fs) (hashed cwd root d r hv hr) [T] [B] Ps = ([job_text (abspath cwd root) d r (Trotter P B) T], Ok tt) -> In P Ps ->
    base_func py_float bin fs g (Trotter P B) (beta_of_T T') bt out err = (fs1, Ok tt) -> fmt2 T' = fmt2 T -> ~ (T' == 0)%Q ->
    rounds py_float bin cwd root d r hv hr g B T Ps n fs1 fs2 -> rounds py_float bin cwd root d r hv hr g B T Ps (S n) fs fs2.
Lemma cut_at c a b x y : ~ In c (chars a) -> ~ In c (chars b) -> a ++ String c x = b ++ String c y -> a = b.
Proof.
  revert b. induction a as [|e a IH]; intros [|e' b] A B E; cbn in *; [reflexivity| | |].
  - injection E as -> _. tauto.
  - injection E as <- _. tauto.
  - injection E as <- E. f_equal. apply IH; tauto.
Qed.
Lemma dec_no_underscore z : ~ In "_"%char (chars (dec z)).
Proof. pose proof (dec_int_chars z) as H. revert H. generalize (dec z). induction s as [|c s IH]; cbn; [tauto|]. rewrite andb_true_iff. intros [A B] [E|E]; [subst; discriminate|exact (IH B E)]. Qed.
Lemma trotter_text_inj p d r P P' B T : job_text p d r (Trotter P B) T = job_text p d r (Trotter P' B) T -> P = P'.
Proof.
  unfold job_text. rewrite !append_assoc. intros E. apply append_inj_l in E. apply append_inj_l in E. apply append_inj_l in E. apply append_inj_l in E.
  apply dec_inj. eapply cut_at; [| |exact E]; apply dec_no_underscore.
Qed.
(** the numbers of beads without results *)
Definition open_beads (fs : fsys string) (f : fstruct) (where_ : task -> string) (B : Z) (T : Q) (Ps : list Z) : list Z :=
  filter (fun P => match already fs f (where_ (Trotter P B)) T with Ok true => false | _ => true end) Ps.
Lemma filter_less {A} (p q : A -> bool) : (forall x, q x = true -> p x = true) -> forall l, length (filter q l) <= length (filter p l).
Proof. intros H. induction l as [|x l IH]; [apply le_n|]. cbn. specialize (H x). destruct (q x), (p x); cbn; try lia. Qed.
Lemma filter_at_most {A} (p : A -> bool) l : length (filter p l) <= length l.
Proof. induction l as [|x l IH]; [apply le_n|]. cbn. destruct (p x); cbn; lia. Qed.
Lemma filter_strict {A} (p q : A -> bool) x : (forall x, q x = true -> p x = true) -> forall l, In x l -> p x = true -> q x = false -> length (filter q l) < length (filter p l).
Proof.
  intros H. induction l as [|y l IH]; intros I P Q; [destruct I|]. pose proof (filter_less p q H l) as L. cbn. destruct I as [->|I].
  - rewrite P, Q. cbn. lia.
  - specialize (IH I P Q). pose proof (H y) as Hy. destruct (q y), (p y); cbn; try lia.
Qed.
(** C96: the script has to be run once for every missing number of beads; if it was run as often as there are numbers of beads, all is done, and it fails from then on *)
Theorem C96_rounds py_float bin cwd root d r hv hr g B T Ps n fs fs' : (forall s x, py_float s = Ok x -> float_text x) -> no_brace root = true -> no_brace (abspath cwd root) = true ->
  hash_vib g = Some hv -> (forall t, coupled t -> target g t = Ok (results_at root d r t)) ->
  rounds py_float bin cwd root d r hv hr g B T Ps n fs fs' ->
  n <= length Ps /\
  (n = length Ps -> (forall P, In P Ps -> finished fs' (hashed cwd root d r hv hr) (results_at root d r (Trotter P B)) T) /\
                    art_trotter_results (fun _ => fs') (hashed cwd root d r hv hr) [T] [B] Ps = ([], Raise UnboundLocalError)).
Proof.
  intros FT N1 N2 HG TG R. set (f := hashed cwd root d r hv hr). set (w := results_at root d r).
  assert (M : n + length (open_beads fs' f w B T Ps) <= length (open_beads fs f w B T Ps)).
  { induction R as [fs|n fs P T' bt out err fs1 fs2 S I E ET NZ R IH]; [lia|].
    assert (L : length (open_beads fs1 f w B T Ps) < length (open_beads fs f w B T Ps)); [|lia].
    destruct (C95_done py_float bin fs g (Trotter P B) T T' bt out err fs1 f hv (w (Trotter P B)) FT Logic.I (TG (Trotter P B) Logic.I) HG eq_refl ET NZ E) as [D1 D2].
    apply (filter_strict _ _ P).
    - intros Q. pose proof (D2 (w (Trotter Q B)) T) as D. destruct (already fs f (w (Trotter Q B)) T) as [[|]|]; auto. rewrite (D eq_refl). auto.
    - exact I.
    - destruct (C96_trotter cwd root d r hv hr (fun _ => fs) [T] [B] Ps N1 N2) as (pairs & PL & PN & A). rewrite S in A. cbn [fst snd] in A.
      assert (PE : pairs = [(B, T)]). { specialize (PN 0 0 B T eq_refl eq_refl). cbn in PN, PL. destruct pairs as [|x [|y pairs]]; try discriminate. cbn in PN. congruence. }
      subst pairs. apply C96_one_for_each in A. destruct A as [_ A]. destruct (A 0 B T eq_refl) as [(P0 & (Ps1 & Ps2 & EP & Ms & _) & X)|[_ X]]; [|discriminate X].
      assert (Y : forall a b : string, nth_error [a] 0 = Some b -> b = a) by (intros a b Z; injection Z as Z; auto). apply Y in X. apply trotter_text_inj in X. subst P0.
      destruct (already_spec fs f (w (Trotter P B)) T) as (_ & K & _). rewrite (K Ms). reflexivity.
    - rewrite D1. reflexivity. }
  assert (L : length (open_beads fs f w B T Ps) <= length Ps) by apply filter_at_most.
  split; [lia|]. intros E.
  assert (A : forall P, In P Ps -> finished fs' f (w (Trotter P B)) T).
  { intros P I. destruct (already_spec fs' f (w (Trotter P B)) T) as (_ & K1 & K2 & [F|F]); [exact F|exfalso].
    assert (X : In P (open_beads fs' f w B T Ps)). { apply filter_In. split; [exact I|]. destruct F as [F|F]; [rewrite (K1 F); reflexivity|destruct (K2 F) as [e Ee]; rewrite Ee; reflexivity]. }
    destruct (open_beads fs' f w B T Ps); [destruct X|cbn in M; lia]. }
  split; [exact A|].
  destruct (C96_trotter cwd root d r hv hr (fun _ => fs') [T] [B] Ps N1 N2) as (pairs & PL & PN & AR).
  assert (PE : pairs = [(B, T)]). { specialize (PN 0 0 B T eq_refl eq_refl). cbn in PN, PL. destruct pairs as [|x [|y pairs]]; try discriminate. cbn in PN. congruence. }
  subst pairs. apply C96_first_done in AR; [|intros i P X; apply A; eapply nth_error_In; exact X]. fold f in AR. destruct (art_trotter_results (fun _ => fs') f [T] [B] Ps) as [cs o]. cbn [fst snd] in AR. destruct AR as [-> ->]. reflexivity.
Qed.

(** ** what is not true *)
Definition ex_art : fstruct := hashed "/" "/w" 11 0 "V" "R".
Definition ex_result : string := dumps (JObj [("hash_vib", JStr "V"); ("300.00", JObj [("Z_trotter", JFloat "1.5")])]).
(** "every missing calculation is started" *)
Theorem C96_missing_refuted : ~ (forall fs B T Ps P, In P Ps -> missing fs ex_art (results_at "/w" 11 0 (Trotter P B)) T ->
  In (job_text "/w" 11 0 (Trotter P B) T) (fst (art_trotter_results (fun _ => fs) ex_art [T] [B] Ps))).
Proof.
  intros H. specialize (H (fun _ => None) 20%Z 300%Q [4; 8]%Z 4%Z (or_introl eq_refl) (or_introl eq_refl)). destruct H as [H|[]]. vm_compute in H. discriminate.
Qed.
(** "no finished calculation is started again" *)
Theorem C96_finished_refuted : ~ (forall world B T Ps P, (forall k, finished (world k) ex_art (results_at "/w" 11 0 (Trotter P B)) T \/ k = 0) ->
  length (filter (String.eqb (job_text "/w" 11 0 (Trotter P B) T)) (fst (art_trotter_results world ex_art [T; 300%Q] [B] Ps))) <= 1).
Proof.
  intros H. specialize (H (fun k p => if (k =? 0) then None else if String.eqb p "/w/data_set_11/parameters/trotter_P4_B20.json" then Some ex_result else None) 20%Z 300%Q [4]%Z 4%Z).
  assert (X : forall k, finished ((fun (k : nat) (p : string) => if (k =? 0) then None else if String.eqb p "/w/data_set_11/parameters/trotter_P4_B20.json" then Some ex_result else None) k) ex_art (results_at "/w" 11 0 (Trotter 4 20)) 300 \/ k = 0).
  { intros [|k]; [right; reflexivity|left]. exists ex_result, [("hash_vib", JStr "V"); ("300.00", JObj [("Z_trotter", JFloat "1.5")])], "V", (JObj [("Z_trotter", JFloat "1.5")]). repeat split; vm_compute; reflexivity. }
  specialize (H X). vm_compute in H. lia.
Qed.
(** "the script does not fail if all files can be read" *)
Theorem C96_fails_refuted : ~ (forall fs T B Ps, (forall P, In P Ps -> ~ unreadable fs ex_art (results_at "/w" 11 0 (Trotter P B))) -> snd (art_trotter_results (fun _ => fs) ex_art [T] [B] Ps) = Ok tt).
Proof. intros H. specialize (H (fun _ => None) 300%Q 20%Z [] (fun P F => match F with end)). discriminate. Qed.

(** ** the analytic results *)
Lemma original_text f T : no_brace (path_root f) = true -> original_command f T = Ok (analytic_text (path_root f) (id_data f) (id_rho f) ("analytic_D" ++ dec (id_data f)) "analytic_of_coupled_model" T).
Proof.
  intros NB. pose proof (no_brace_fs f NB) as NF. unfold original_command.
  rewrite (format_literal _ jl_import) by reflexivity.
  change ("b = beta({temperature:.2f});" ++ fs_text f ++ ?x) with ("b = beta(" ++ "{" ++ "temperature:.2f" ++ "}" ++ ");" ++ fs_text f ++ x).
  rewrite (format_literal _ "b = beta(") by reflexivity. rewrite format_field by reflexivity.
  rewrite (format_literal _ ");") by reflexivity. rewrite (format_literal _ (fs_text f)) by exact NF. rewrite format_lit by reflexivity.
  unfold fs_text. cbn [bind]. change (lookup_args [("temperature:.2f", fmt2 T)] "temperature:.2f") with (@Ok string (fmt2 T)). cbn [bind].
  f_equal. unfold analytic_text, jl_import. rewrite !append_assoc. reflexivity.
Qed.
Lemma sampling_text f T : no_brace (path_root f) = true ->
  sampling_command f T = Ok (analytic_text (path_root f) (id_data f) (id_rho f) ("analytic_D" ++ dec (id_data f) ++ "_R" ++ dec (id_rho f)) "analytic_of_sampling_model" T).
Proof.
  intros NB. pose proof (no_brace_fs f NB) as NF. unfold sampling_command, func_call.
  rewrite (format_literal _ jl_import) by reflexivity.
  change ("b = beta({temperature:.2f});" ++ fs_text f ++ ?x) with ("b = beta(" ++ "{" ++ "temperature:.2f" ++ "}" ++ ");" ++ fs_text f ++ x).
  rewrite (format_literal _ "b = beta(") by reflexivity. rewrite format_field by reflexivity.
  rewrite (format_literal _ ");") by reflexivity. rewrite (format_literal _ (fs_text f)) by exact NF. rewrite format_lit by reflexivity.
  unfold fs_text. cbn [bind]. change (lookup_args [("temperature:.2f", fmt2 T)] "temperature:.2f") with (@Ok string (fmt2 T)). cbn [bind].
  f_equal. unfold analytic_text, jl_import. rewrite !append_assoc. reflexivity.
Qed.
Lemma each_map command text Ts : (forall T, command T = Ok (text T)) -> each command Ts = (map text Ts, Ok tt).
Proof. intros H. induction Ts as [|T Ts IH]; [reflexivity|]. cbn [each map]. rewrite H, IH. reflexivity. Qed.
Lemma art_valid d : existsb (Z.eqb d) (concat (map snd art_ids)) = true <-> (1 <= d / 10 <= 3 /\ 1 <= d mod 10 <= 5)%Z.
Proof.
  pose proof (Z.div_mod d 10 ltac:(lia)) as DM. pose proof (Z.mod_pos_bound d 10 ltac:(lia)) as MB. rewrite existsb_exists. split.
  - intros (x & I & E). apply Z.eqb_eq in E. subst x. cbn in I. lia.
  - intros [A B]. exists d. split; [|apply Z.eqb_refl]. cbn. lia.
Qed.
(** C96: the analytic results of the two models at every temperature; nothing of the files is looked at *)
Theorem C96_analytic cwd root d r hv hr Ts : no_brace (abspath cwd root) = true ->
  ((1 <= d / 10 <= 3 /\ 1 <= d mod 10 <= 5)%Z ->
   art_analytical_results (hashed cwd root d r hv hr) Ts =
     (map (analytic_text (abspath cwd root) d r ("analytic_D" ++ dec d) "analytic_of_coupled_model") Ts ++
      map (analytic_text (abspath cwd root) d r ("analytic_D" ++ dec d ++ "_R" ++ dec r) "analytic_of_sampling_model") Ts, Ok tt)%list) /\
  (~ (1 <= d / 10 <= 3 /\ 1 <= d mod 10 <= 5)%Z -> art_analytical_results (hashed cwd root d r hv hr) Ts = ([], Raise AssertionError)).
Proof.
  intros NB. unfold art_analytical_results, art_assert_valid. change (id_data (hashed cwd root d r hv hr)) with d. split; intros V.
  - apply art_valid in V. rewrite V. cbn [passert].
    rewrite (each_map _ _ _ (fun T => original_text (hashed cwd root d r hv hr) T NB)), (each_map _ _ _ (fun T => sampling_text (hashed cwd root d r hv hr) T NB)). reflexivity.
  - destruct (existsb (Z.eqb d) (concat (map snd art_ids))) eqn:E; [apply art_valid in E; tauto|reflexivity].
Qed.
(** C96: the job for the original model calls a function that does not exist, and leaves the files alone; the others call existing functions *)
Theorem C96_original_fails p d r n T : 
  (forall call fs, exists a f, analytic_text p d r n "analytic_of_coupled_model" T = a ++ "pibronic.julia_wrapper." ++ f ++ "(FS, b);'" /\ last_statement f call fs = (fs, Raise AttributeError)) /\
  (forall call fs, exists a f, analytic_text p d r n "analytic_of_sampling_model" T = a ++ "pibronic.julia_wrapper." ++ f ++ "(FS, b);'" /\ last_statement f call fs = call fs) /\
  (forall call fs B, exists a f, job_text p d r (Sos B) T = a ++ "pibronic.julia_wrapper." ++ f ++ "(FS, BS, b);'" /\ last_statement f call fs = call fs) /\
  (forall call fs P B, exists a f, job_text p d r (Trotter P B) T = a ++ "pibronic.julia_wrapper." ++ f ++ "(FS, P, BS, b);'" /\ last_statement f call fs = call fs).
Proof.
  assert (S : forall a b c x, a ++ b = c ++ x -> exists a', a ++ b = a' ++ x) by eauto.
  split; [|split; [|split]].
  - intros call fs. eexists (_ ++ _), "analytic_of_coupled_model". split; [|reflexivity]. unfold analytic_text.
    match goal with |- ?a ++ ?n ++ ?b ++ ?t ++ ?c ++ ?e ++ ?t ++ ?g ++ ?h ++ ?q ++ p ++ ?q ++ ?i ++ ?d ++ ?i ++ ?r ++ _ = _ =>
      transitivity ((a ++ n ++ b ++ t ++ c ++ e ++ t ++ g ++ h ++ q ++ p ++ q ++ i ++ d ++ i ++ r) ++ ");FS.generate_model_hashes();jw.prepare_julia();" ++ "pibronic.julia_wrapper." ++ "analytic_of_coupled_model" ++ "(FS, b);'") end.
    + rewrite !append_assoc. reflexivity.
    + rewrite <- append_assoc. reflexivity.
  - intros call fs. eexists (_ ++ _), "analytic_of_sampling_model". split; [|reflexivity]. unfold analytic_text.
    match goal with |- ?a ++ ?n ++ ?b ++ ?t ++ ?c ++ ?e ++ ?t ++ ?g ++ ?h ++ ?q ++ p ++ ?q ++ ?i ++ ?d ++ ?i ++ ?r ++ _ = _ =>
      transitivity ((a ++ n ++ b ++ t ++ c ++ e ++ t ++ g ++ h ++ q ++ p ++ q ++ i ++ d ++ i ++ r) ++ ");FS.generate_model_hashes();jw.prepare_julia();" ++ "pibronic.julia_wrapper." ++ "analytic_of_sampling_model" ++ "(FS, b);'") end.
    + rewrite !append_assoc. reflexivity.
    + rewrite <- append_assoc. reflexivity.
  - intros call fs B. eexists (_ ++ _), "sos_of_coupled_model". split; [|reflexivity]. unfold job_text, job_code. cbv iota beta.
    transitivity (("srun --job-name=" ++ ("sos_D" ++ dec d) ++ "_T" ++ fmt2 T ++ " --mem=20GB" ++ " python3 -c '" ++ "import pibronic;from pibronic.data import file_structure as fs;from pibronic import julia_wrapper as jw;from pibronic.constants import beta;b = beta(" ++ fmt2 T ++ ");" ++ "BS = " ++ dec B ++ ";" ++ "FS = fs.FileStructure(" ++ quote ++ p ++ quote ++ ", " ++ dec d ++ ", " ++ dec r) ++ ");FS.generate_model_hashes();jw.prepare_julia();" ++ "pibronic.julia_wrapper." ++ "sos_of_coupled_model" ++ "(FS, BS, b);'").
    + rewrite !append_assoc. reflexivity.
    + rewrite <- append_assoc. reflexivity.
  - intros call fs P B. eexists (_ ++ _), "trotter_of_coupled_model". split; [|reflexivity]. unfold job_text, job_code. cbv iota beta.
    transitivity (("srun --job-name=" ++ ("trotter_D" ++ dec d ++ "_P" ++ dec P) ++ "_T" ++ fmt2 T ++ " --mem=20GB" ++ " python3 -c '" ++ "import pibronic;from pibronic.data import file_structure as fs;from pibronic import julia_wrapper as jw;from pibronic.constants import beta;b = beta(" ++ fmt2 T ++ ");" ++ "P = " ++ dec P ++ ";" ++ "BS = " ++ dec B ++ ";" ++ "FS = fs.FileStructure(" ++ quote ++ p ++ quote ++ ", " ++ dec d ++ ", " ++ dec r) ++ ");FS.generate_model_hashes();jw.prepare_julia();" ++ "pibronic.julia_wrapper." ++ "trotter_of_coupled_model" ++ "(FS, P, BS, b);'").
    + rewrite !append_assoc. reflexivity.
    + rewrite <- append_assoc. reflexivity.
Qed.
(** C96: the name belongs to the tens digit, the parameter of the transformation to the other *)
Theorem C96_systems d :
  ((1 <= d / 10 <= 3 /\ 1 <= d mod 10 <= 5)%Z ->
     (forall k n, nth_error ["2x2"; "4x6"; "7x12"] k = Some n -> (d / 10 = Z.of_nat k + 1)%Z -> art_system_name d = Ok n) /\
     (forall k x, nth_error [5; 25; 50; 75; 100]%Z k = Some x -> (d mod 10 = Z.of_nat k + 1)%Z -> art_tuning d = Ok x)) /\
  (~ (1 <= d / 10 <= 3 /\ 1 <= d mod 10 <= 5)%Z -> art_system_name d = Raise AssertionError /\ art_tuning d = Raise AssertionError).
Proof.
  split; intros V.
  - pose proof (Z.div_mod d 10 ltac:(lia)) as DM. assert (C : In d [11; 12; 13; 14; 15; 21; 22; 23; 24; 25; 31; 32; 33; 34; 35]%Z) by (cbn; lia). clear DM V.
    split; intros k n E D.
    + destruct k as [|[|[|k]]]; [| | |destruct k; discriminate]; injection E as <-; cbn in C; repeat (destruct C as [<-|C]; [first [reflexivity|discriminate D]|]); destruct C.
    + destruct k as [|[|[|[|[|k]]]]]; [| | | | |destruct k; discriminate]; injection E as <-; cbn in C; repeat (destruct C as [<-|C]; [first [reflexivity|discriminate D]|]); destruct C.
  - unfold art_system_name, art_tuning, art_assert_valid. destruct (existsb (Z.eqb d) (concat (map snd art_ids))) eqn:E; [apply art_valid in E; tauto|]. split; reflexivity.
Qed.

(** ** examples *)
Definition ex_art_files : fsys string := fun p => if String.eqb p "/w/data_set_11/parameters/trotter_P8_B20.json" then Some ex_result else None.
(** two sizes, three numbers of beads: five calculations are missing, two are started *)
Example C96_trotter_ex : no_brace "/w" = true /\ no_brace (abspath "/" "/w") = true /\
  art_trotter_results (fun _ => ex_art_files) ex_art [300%Q] [20; 40]%Z [2; 4; 8]%Z = ([job_text "/w" 11 0 (Trotter 4 20) 300; job_text "/w" 11 0 (Trotter 8 40) 300], Ok tt).
Proof. repeat split; vm_compute; reflexivity. Qed.
Lemma ex_finished : finished ex_art_files ex_art (results_at "/w" 11 0 (Trotter 8 20)) 300.
Proof. exists ex_result, [("hash_vib", JStr "V"); ("300.00", JObj [("Z_trotter", JFloat "1.5")])], "V", (JObj [("Z_trotter", JFloat "1.5")]). repeat split; vm_compute; reflexivity. Qed.
(** the first size is done: the second is not started *)
Example C96_first_done_ex : all_finished (results_at "/w" 11 0) (fun _ => ex_art_files) ex_art 20 300 0 [8%Z] /\
  missing ex_art_files ex_art (results_at "/w" 11 0 (Trotter 8 40)) 300 /\
  art_trotter_results (fun _ => ex_art_files) ex_art [300%Q] [20; 40]%Z [8%Z] = ([], Raise UnboundLocalError).
Proof. split; [|split; [left|]; vm_compute; reflexivity]. intros [|i] P E; [injection E as <-; exact ex_finished|destruct i; discriminate]. Qed.
Example C96_one_for_each_ex : art_runs (job_text "/w" 11 0) (results_at "/w" 11 0) (fun _ => ex_art_files) ex_art [4; 8]%Z 0 None [(20%Z, 300%Q)] [job_text "/w" 11 0 (Trotter 4 20) 300] (Ok tt).
Proof.
  apply art_new; [|constructor]. exists [], [8%Z]. split; [reflexivity|]. split; [left; vm_compute; reflexivity|]. split; [|intros [|i] P E; discriminate].
  intros [|i] P E; [injection E as <-; exact ex_finished|destruct i; discriminate].
Qed.
(** two rounds, for the last number of beads and for the first *)
Example C96_rounds_ex : exists fs', rounds ex_float "" "/" "/w" 11 0 "V" "R" ex_art 20 300 [4; 8]%Z 2 (files ex_w0) fs' /\ fs' <> files ex_w0 /\
  art_trotter_results (fun _ => fs') ex_art [300%Q] [20%Z] [4; 8]%Z = ([], Raise UnboundLocalError).
Proof.
  eexists. split; [|split].
  - eapply (rounds_more _ _ _ _ _ _ _ _ _ _ _ _ _ _ 8%Z 300%Q "29" "Z_trotter: 1.5" ""); [vm_compute; reflexivity|right; left; reflexivity|vm_compute; reflexivity|reflexivity|discriminate|].
    eapply (rounds_more _ _ _ _ _ _ _ _ _ _ _ _ _ _ 4%Z 300%Q "29" "Z_trotter: 1.5" ""); [vm_compute; reflexivity|left; reflexivity|vm_compute; reflexivity|reflexivity|discriminate|].
    apply rounds_end.
  - intros E. apply (f_equal (fun g => g "/w/data_set_11/parameters/trotter_P4_B20.json")) in E. vm_compute in E. discriminate.
  - vm_compute. reflexivity.
Qed.
Example C96_analytic_ex : (1 <= 21 / 10 <= 3 /\ 1 <= 21 mod 10 <= 5)%Z /\ length (fst (art_analytical_results (hashed "/" "/w" 21 3 "V" "R") [300%Q; 400%Q])) = 4 /\
  art_analytical_results (hashed "/" "/w" 16 3 "V" "R") [300%Q] = ([], Raise AssertionError).
Proof. split; [vm_compute; intuition discriminate|split; reflexivity]. Qed.
Example C96_systems_ex : art_system_name 34 = Ok "7x12" /\ art_tuning 34 = Ok 75%Z /\ art_tuning 26 = Raise AssertionError.
Proof. repeat split; reflexivity. Qed.

Print Assumptions C96_trotter.
Print Assumptions C96_one_for_each.
Print Assumptions C96_first_done.
Print Assumptions C96_rounds.
Print Assumptions C96_missing_refuted.
Print Assumptions C96_finished_refuted.
Print Assumptions C96_fails_refuted.
Print Assumptions C96_analytic.
Print Assumptions C96_original_fails.
Print Assumptions C96_systems.
