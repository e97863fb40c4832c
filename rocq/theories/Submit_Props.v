(** C95: the submission of calculations *)
From Coq Require Import QArith Lia.
From Verif Require Import Common Common_Proofs PyStr_Model PyStr_Proofs Json_Model Json_Spec Json_Proofs Json5_Proofs Json6_Proofs FileName_Model FileName_Proofs FileStruct_Model FileStruct_Proofs Julia_Model Julia_Spec Julia_Proofs Julia2_Proofs Julia3_Proofs Julia_Props Julia2_Props Submit_Model Submit_Spec.
Local Open Scope string_scope.
Local Open Scope nat_scope.

(** ** the commands *)
Lemma no_brace_app a b : no_brace (a ++ b) = no_brace a && no_brace b.
Proof. apply all_chars_app. Qed.
Lemma no_brace_fmt2 T : no_brace (fmt2 T) = true.
Proof.
  unfold no_brace. eapply all_chars_impl; [|apply fmt2_chars]. intros c Hc.
  destruct (Ascii.eqb_spec c "{"); [subst; discriminate|]. destruct (Ascii.eqb_spec c "}"); [subst; discriminate|]. auto.
Qed.
Lemma format_field args b s : no_brace b = true -> py_format ("{" ++ b ++ "}" ++ s) args = (do v <- lookup_args args b; do r <- py_format s args; Ok (v ++ r)).
Proof. apply format_go_field. Qed.
Lemma format_lit args a : no_brace a = true -> py_format a args = Ok a.
Proof. intros H. rewrite <- (append_nil_r a) at 1. rewrite format_literal by exact H. cbn. rewrite append_nil_r. reflexivity. Qed.
Lemma no_brace_fs f : no_brace (path_root f) = true -> no_brace (fs_text f) = true.
Proof. intros H. unfold fs_text. rewrite !no_brace_app, H, !no_brace_dec. reflexivity. Qed.

(** C95: the command of a calculation *)
Theorem C95_text f t T : no_brace (path_root f) = true -> t <> Original -> job_command f t T = Ok (job_text (path_root f) (id_data f) (id_rho f) t T).
Proof.
  intros NB NT. pose proof (no_brace_fs f NB) as NF.
  assert (C : func_call f t T = Ok (job_code (path_root f) (id_data f) (id_rho f) t T)).
  { unfold func_call, job_code. destruct t as [| |B|P B]; [|congruence| |].
    - rewrite (format_literal _ jl_import) by reflexivity.
      change ("b = beta({temperature:.2f});" ++ fs_text f ++ ?x) with ("b = beta(" ++ "{" ++ "temperature:.2f" ++ "}" ++ ");" ++ fs_text f ++ x).
      rewrite (format_literal _ "b = beta(") by reflexivity. rewrite format_field by reflexivity.
      rewrite (format_literal _ ");") by reflexivity. rewrite (format_literal _ (fs_text f)) by exact NF. rewrite format_lit by reflexivity.
      unfold fs_text. cbn [bind]. change (lookup_args [("temperature:.2f", fmt2 T)] "temperature:.2f") with (@Ok string (fmt2 T)). cbn [bind].
      unfold jl_import. rewrite !append_assoc. reflexivity.
    - rewrite (format_literal _ jl_import) by reflexivity.
      change ("b = beta({temperature:.2f});" ++ "BS = {BS:d};" ++ fs_text f ++ ?x) with ("b = beta(" ++ "{" ++ "temperature:.2f" ++ "}" ++ ");BS = " ++ "{" ++ "BS:d" ++ "}" ++ ";" ++ fs_text f ++ x).
      rewrite (format_literal _ "b = beta(") by reflexivity. rewrite format_field by reflexivity.
      rewrite (format_literal _ ");BS = ") by reflexivity. rewrite format_field by reflexivity. rewrite (format_literal _ ";") by reflexivity.
      rewrite (format_literal _ (fs_text f)) by exact NF. rewrite format_lit by reflexivity.
      unfold fs_text. set (args := [_; _]). change (lookup_args args "temperature:.2f") with (@Ok string (fmt2 T)). change (lookup_args args "BS:d") with (@Ok string (dec B)). cbn [bind].
      unfold jl_import. rewrite !append_assoc. reflexivity.
    - rewrite (format_literal _ jl_import) by reflexivity.
      change ("b = beta({temperature:.2f});" ++ "P = {nbeads:d};" ++ "BS = {BS:d};" ++ fs_text f ++ ?x) with ("b = beta(" ++ "{" ++ "temperature:.2f" ++ "}" ++ ");P = " ++ "{" ++ "nbeads:d" ++ "}" ++ ";BS = " ++ "{" ++ "BS:d" ++ "}" ++ ";" ++ fs_text f ++ x).
      rewrite (format_literal _ "b = beta(") by reflexivity. rewrite format_field by reflexivity.
      rewrite (format_literal _ ");P = ") by reflexivity. rewrite format_field by reflexivity. rewrite (format_literal _ ";BS = ") by reflexivity. rewrite format_field by reflexivity. rewrite (format_literal _ ";") by reflexivity.
      rewrite (format_literal _ (fs_text f)) by exact NF. rewrite format_lit by reflexivity.
      unfold fs_text. set (args := [_; _; _]). change (lookup_args args "temperature:.2f") with (@Ok string (fmt2 T)). change (lookup_args args "nbeads:d") with (@Ok string (dec P)). change (lookup_args args "BS:d") with (@Ok string (dec B)). cbn [bind].
      unfold jl_import. rewrite !append_assoc. reflexivity. }
  unfold job_command. rewrite C. cbn [bind].
  assert (NJ : no_brace (job_name f t T) = true).
  { unfold job_name. destruct t; rewrite ?no_brace_app, ?no_brace_dec, ?no_brace_fmt2; reflexivity. }
  rewrite (format_literal _ "srun") by reflexivity. rewrite (format_literal _ " --job-name=") by reflexivity. rewrite (format_literal _ (job_name f t T)) by exact NJ.
  rewrite (format_literal _ match t with Sampling => "" | _ => " --mem=20GB" end) by (destruct t; reflexivity).
  change " python3 -c '{:s}'" with (" python3 -c '" ++ "{" ++ ":s" ++ "}" ++ "'"). rewrite (format_literal _ " python3 -c '") by reflexivity. rewrite format_field by reflexivity.
  rewrite format_lit by reflexivity. change (lookup_args [(":s", ?x)] ":s") with (@Ok string x). cbn [bind]. unfold job_text, job_name. destruct t; [|congruence| |]; rewrite ?append_assoc; reflexivity.
Qed.
(** C95: the program is one argument for the shell exactly if the root has no single quote *)
Lemma chars_app a b : chars (a ++ b) = (chars a ++ chars b)%list.
Proof. induction a; cbn; [reflexivity|]. f_equal. exact IHa. Qed.
Lemma num_no_quote c : is_num_char c = true -> c <> "'"%char.
Proof. intros H ->. discriminate. Qed.
Lemma fmt2_no_quote T : ~ In "'"%char (chars (fmt2 T)).
Proof. pose proof (fmt2_chars T) as H. revert H. generalize (fmt2 T). induction s as [|c s IH]; cbn; [tauto|]. rewrite andb_true_iff. intros [A B] [E|E]; [exact (num_no_quote _ A E)|exact (IH B E)]. Qed.
Lemma dec_no_quote z : ~ In "'"%char (chars (dec z)).
Proof. pose proof (dec_int_chars z) as H. revert H. generalize (dec z). induction s as [|c s IH]; cbn; [tauto|]. rewrite andb_true_iff. intros [A B] [E|E]; [subst; discriminate|exact (IH B E)]. Qed.
Theorem C95_quotes p d r t T : In "'"%char (chars (job_code p d r t T)) <-> In "'"%char (chars p).
Proof.
  unfold job_code. rewrite !chars_app, !in_app_iff.
  assert (N : forall s, forallb (fun c => negb (Ascii.eqb c "'")) (chars s) = true -> ~ In "'"%char (chars s)).
  { intros s H I. rewrite forallb_forall in H. specialize (H _ I). discriminate. }
  split; [|tauto]. intros [H|[H|[H|[H|[H|[H|[H|[H|[H|[H|[H|[H|[H|[H|H]]]]]]]]]]]]]]; try exact H; exfalso; revert H; try (apply N; reflexivity); try apply fmt2_no_quote; try apply dec_no_quote.
  - destruct t; cbv iota; try (apply N; reflexivity). rewrite !chars_app, !in_app_iff. intros [H|[H|H]]; revert H; try (apply N; reflexivity); apply dec_no_quote.
  - destruct t; cbv iota; try (apply N; reflexivity); rewrite !chars_app, !in_app_iff; intros [H|[H|H]]; revert H; try (apply N; reflexivity); apply dec_no_quote.
  - destruct t; apply N; reflexivity.
Qed.

(** ** the loop *)
Lemma already_spec fs f path T :
  (finished fs f path T -> already fs f path T = Ok true) /\ (missing fs f path T -> already fs f path T = Ok false) /\ (unreadable fs f path -> exists e, already fs f path T = Raise e) /\
  (finished fs f path T \/ missing fs f path T \/ unreadable fs f path).
Proof.
  unfold already, valid_hash_file, temp_already_present. split; [|split; [|split]].
  - intros (text & d & h & v & E & L & HH & G & K). rewrite E, L, HH. cbn [bind sub]. unfold get in G, K. rewrite G. cbn [bind same_hash]. rewrite String.eqb_refl. cbn [mem]. unfold dmem. rewrite K. reflexivity.
  - intros [E|(text & d & h & x & E & L & HH & G & K)]; [rewrite E; reflexivity|]. rewrite E, L, HH. cbn [bind sub]. unfold get in G, K. rewrite G. cbn [bind].
    destruct (same_hash (Some x) (Some h)) eqn:SH; [|reflexivity]. destruct K as [K|K]; [destruct K; destruct x; try discriminate; cbn in SH; apply String.eqb_eq in SH; congruence|]. cbn [mem]. unfold dmem. rewrite K. reflexivity.
  - intros (text & E & [HH|N]); rewrite E; destruct (loads text) as [v|e] eqn:L; cbn [bind]; eauto; [rewrite HH; cbn [bind]; eauto|].
    destruct (hash_vib f) as [h|]; cbn [bind]; eauto. destruct v; cbn [sub bind]; eauto. specialize (N _ eq_refl). unfold get in N. rewrite N. cbn [bind]. eauto.
  - destruct (fs path) as [text|] eqn:E; [|right; left; left; exact E]. destruct (hash_vib f) as [h|] eqn:HH; [|right; right; exists text; auto].
    destruct (loads text) as [v|e] eqn:L; [|right; right; exists text; split; [exact E|]; right; intros d X; congruence].
    destruct v as [| | | | | |d]; try (right; right; exists text; split; [exact E|]; right; intros d' X; congruence).
    destruct (get d "hash_vib") as [x|] eqn:G; [|right; right; exists text; split; [exact E|]; right; intros d' X; inv X; congruence].
    assert (D : {x = JStr h} + {x <> JStr h}). { destruct x; try (right; discriminate). destruct (string_dec s h) as [->|D]; [left; reflexivity|right; congruence]. }
    destruct D as [->|D]; [|right; left; right; exists text, d, h, x; auto 10]. destruct (get d (fmt2 T)) as [v|] eqn:K; [left; exists text, d, h, v; auto 10|right; left; right; exists text, d, h, (JStr h); auto 10].
Qed.
Lemma loop_spec text where_ world f : (forall t, coupled t -> target f t = Ok (where_ t)) -> (forall t T, coupled t -> job_command f t T = Ok (text t T)) ->
  forall l k, Forall (fun x => coupled (fst x)) l -> exists b, submits text where_ world f k l (fst (submit_loop world f k l)) b /\ (b = true <-> snd (submit_loop world f k l) = Ok tt).
Proof.
  intros W C. induction l as [|[t T] l IH]; intros k F; cbn [submit_loop].
  - exists true. split; [constructor|tauto].
  - inv F. cbn [fst] in *. rewrite (W t) by assumption. cbn [bind]. destruct (already_spec (world k) f (where_ t) T) as (A & B & U & [K|[K|K]]).
    + rewrite (A K). destruct (IH (S k)) as (b & S1 & S2); [assumption|]. exists b. split; [apply sub_skip; assumption|exact S2].
    + rewrite (B K), (C t T) by assumption. destruct (IH (S k)) as (b & S1 & S2); [assumption|]. exists b. split; [apply sub_start; assumption|exact S2].
    + destruct (U K) as [e E]. rewrite E. exists false. split; [apply sub_stop; exact K|]. split; discriminate.
Qed.
(** the object made by the scripts, after the hashes are known *)
Definition hashed (cwd root : string) (d r : Z) (hv hr : string) : fstruct := set_hash_rho (set_hash_vib (build_fs cwd root d r) hv) hr.
Definition results_at (root : string) (d r : Z) (t : task) : string := join root ("data_set_" ++ dec d ++ "/" ++ result_part r t).
Lemma hashed_target cwd root d r hv hr t : no_brace root = true -> target (hashed cwd root d r hv hr) t = Ok (results_at root d r t).
Proof. intros NB. exact (C73_where cwd root d r t NB). Qed.
Lemma hashed_text cwd root d r hv hr t T : no_brace (abspath cwd root) = true -> coupled t -> job_command (hashed cwd root d r hv hr) t T = Ok (job_text (abspath cwd root) d r t T).
Proof. intros NB C. apply (C95_text (hashed cwd root d r hv hr)); [exact NB|]. intros ->. exact C. Qed.
Lemma flat_nth {A B} (g : A -> list B) n : (forall a, length (g a) = n) -> forall l i a j, nth_error l i = Some a -> j < n -> nth_error (flat_map g l) (i * n + j) = nth_error (g a) j.
Proof.
  intros L. induction l as [|x l IH]; intros i a j E J; [destruct i; discriminate|]. destruct i as [|i]; cbn [nth_error] in E.
  - injection E as <-. cbn [flat_map]. rewrite nth_error_app1 by (rewrite L; lia). reflexivity.
  - cbn [flat_map]. rewrite nth_error_app2 by (rewrite L; lia). rewrite L. replace (S i * n + j - n) with (i * n + j) by lia. apply IH; assumption.
Qed.
Lemma flat_length {A B} (g : A -> list B) n : (forall a, length (g a) = n) -> forall l, length (flat_map g l) = length l * n.
Proof. intros L. induction l as [|x l IH]; [reflexivity|]. cbn [flat_map length]. rewrite app_length, L, IH. lia. Qed.

(** C95: sums over states: all temperatures of the first basis size, then of the next *)
Theorem C95_sos cwd root d r hv hr world Ts Bs : no_brace root = true -> no_brace (abspath cwd root) = true ->
  exists pairs b, length pairs = length Bs * length Ts /\
    (forall i j B T, nth_error Bs i = Some B -> nth_error Ts j = Some T -> nth_error pairs (i * length Ts + j) = Some (Sos B, T)) /\
    submits (job_text (abspath cwd root) d r) (results_at root d r) world (hashed cwd root d r hv hr) 0 pairs (fst (generate_sos_results world (hashed cwd root d r hv hr) Ts Bs)) b /\
    (b = true <-> snd (generate_sos_results world (hashed cwd root d r hv hr) Ts Bs) = Ok tt).
Proof.
  intros N1 N2. set (f := hashed cwd root d r hv hr). exists (flat_map (fun B => map (fun T => (Sos B, T)) Ts) Bs).
  destruct (loop_spec (job_text (abspath cwd root) d r) (results_at root d r) world f) with (l := flat_map (fun B => map (fun T => (Sos B, T)) Ts) Bs) (k := 0) as (b & S1 & S2).
  - intros t _. apply hashed_target. exact N1.
  - intros t T K. apply hashed_text; assumption.
  - apply Forall_forall. intros x I. apply in_flat_map in I. destruct I as (B & _ & I). apply in_map_iff in I. destruct I as (T & <- & _). exact I.
  - exists b. split; [apply flat_length; intros; apply map_length|]. split; [|split; assumption].
    intros i j B T EB ET. rewrite (flat_nth _ (length Ts) (fun a => map_length _ _) Bs i B j EB) by (apply nth_error_Some; congruence). rewrite nth_error_map, ET. reflexivity.
Qed.
(** C95: Trotter: all numbers of beads of the first temperature and basis size, then of the next temperature *)
Theorem C95_trotter cwd root d r hv hr world Ts Bs Ps : no_brace root = true -> no_brace (abspath cwd root) = true ->
  exists triples b, length triples = length Bs * (length Ts * length Ps) /\
    (forall i j k B T P, nth_error Bs i = Some B -> nth_error Ts j = Some T -> nth_error Ps k = Some P -> nth_error triples (i * (length Ts * length Ps) + (j * length Ps + k)) = Some (Trotter P B, T)) /\
    submits (job_text (abspath cwd root) d r) (results_at root d r) world (hashed cwd root d r hv hr) 0 triples (fst (generate_trotter_results world (hashed cwd root d r hv hr) Ts Bs Ps)) b /\
    (b = true <-> snd (generate_trotter_results world (hashed cwd root d r hv hr) Ts Bs Ps) = Ok tt).
Proof.
  intros N1 N2. set (f := hashed cwd root d r hv hr). exists (flat_map (fun B => flat_map (fun T => map (fun P => (Trotter P B, T)) Ps) Ts) Bs).
  destruct (loop_spec (job_text (abspath cwd root) d r) (results_at root d r) world f) with (l := flat_map (fun B => flat_map (fun T => map (fun P => (Trotter P B, T)) Ps) Ts) Bs) (k := 0) as (b & S1 & S2).
  - intros t _. apply hashed_target. exact N1.
  - intros t T K. apply hashed_text; assumption.
  - apply Forall_forall. intros x I. apply in_flat_map in I. destruct I as (B & _ & I). apply in_flat_map in I. destruct I as (T & _ & I). apply in_map_iff in I. destruct I as (P & <- & _). exact I.
  - exists b. assert (L1 : forall B (T : Q), length (map (fun P => (Trotter P B, T)) Ps) = length Ps) by (intros; apply map_length).
    assert (L2 : forall B, length (flat_map (fun T => map (fun P => (Trotter P B, T)) Ps) Ts) = length Ts * length Ps) by (intros; apply flat_length; apply L1).
    split; [apply flat_length; exact L2|]. split; [|split; assumption].
    intros i j k B T P EB ET EP. assert (J : j < length Ts) by (apply nth_error_Some; congruence). assert (K : k < length Ps) by (apply nth_error_Some; congruence).
    rewrite (flat_nth _ _ L2 Bs i B _ EB) by nia. rewrite (flat_nth _ _ (L1 B) Ts j T k ET) by exact K. rewrite nth_error_map, EP. reflexivity.
Qed.
(** C95: what is started was missing, and if the end is reached nothing is left out *)
Theorem C95_started text where_ world f k l cs b : submits text where_ world f k l cs b ->
  (forall c, In c cs -> exists i t T, nth_error l i = Some (t, T) /\ c = text t T /\ missing (world (k + i)) f (where_ t) T) /\
  (b = true -> forall i t T, nth_error l i = Some (t, T) -> In (text t T) cs \/ finished (world (k + i)) f (where_ t) T) /\
  (b = false -> exists i t T, nth_error l i = Some (t, T) /\ unreadable (world (k + i)) f (where_ t)).
Proof.
  induction 1 as [k|k t T l cs b K SS (IH1 & IH2 & IH3)|k t T l cs b K SS (IH1 & IH2 & IH3)|k t T l K].
  - split; [intros c []|]. split; [intros _ [|i]; discriminate|discriminate].
  - split; [|split].
    + intros c I. destruct (IH1 c I) as (i & t' & T' & E & C & M). exists (S i), t', T'. rewrite Nat.add_succ_r. auto.
    + intros B [|i] t' T' E; [injection E as <- <-; right; rewrite Nat.add_0_r; exact K|]. rewrite Nat.add_succ_r. exact (IH2 B i t' T' E).
    + intros B. destruct (IH3 B) as (i & t' & T' & E & U). exists (S i), t', T'. rewrite Nat.add_succ_r. auto.
  - split; [|split].
    + intros c [<-|I]; [exists 0, t, T; rewrite Nat.add_0_r; auto|]. destruct (IH1 c I) as (i & t' & T' & E & C & M). exists (S i), t', T'. rewrite Nat.add_succ_r. auto.
    + intros B [|i] t' T' E; [injection E as <- <-; left; left; reflexivity|]. rewrite Nat.add_succ_r. destruct (IH2 B i t' T' E); [left; right; assumption|right; assumption].
    + intros B. destruct (IH3 B) as (i & t' & T' & E & U). exists (S i), t', T'. rewrite Nat.add_succ_r. auto.
  - split; [intros c []|]. split; [discriminate|]. intros _. exists 0, t, T. rewrite Nat.add_0_r. auto.
Qed.

(** ** one calculation after the other *)
Lemma base_finished py_float bin fs g t T T' bt out err fs' f h p : (forall s x, py_float s = Ok x -> float_text x) -> coupled t ->
  target g t = Ok p -> hash_vib g = Some h -> hash_vib f = Some h -> fmt2 T' = fmt2 T -> ~ (T' == 0)%Q ->
  base_func py_float bin fs g t (beta_of_T T') bt out err = (fs', Ok tt) ->
  finished fs' f p T /\ (forall q T0, finished fs f q T0 -> finished fs' f q T0).
Proof.
  intros FT CT TG HG HF ET NZ E. destruct (base_result _ _ _ _ _ _ _ _ _ _ E) as (dst & cmd & d0 & names0 & temp0 & T1 & _ & S0 & _). assert (dst = p) by congruence. subst dst.
  destruct (C47_run py_float bin fs g t (beta_of_T T') bt out err fs' p d0 FT E TG S0) as (O & d' & names & temp & S1 & (C1 & _) & _ & _ & G & K).
  rewrite (C47_key T' NZ) in G, K. rewrite HG in C1. cbn [hash_value] in C1.
  assert (X : exists text, fs' p = Some text /\ loads text = Ok (JObj d')).
  { destruct S1 as [[_ ->]|(text & E1 & [[_ ->]|[_ L]])]; [discriminate|discriminate|]. eauto. }
  destruct X as (text & E1 & L1). split.
  - exists text, d', h, (JObj temp). rewrite <- ET. auto 10.
  - intros q T0 (text0 & d1 & h1 & v & E0 & L0 & H1 & G1 & K1). destruct (string_dec q p) as [->|D]; [|exists text0, d1, h1, v; rewrite (O q D); auto 10].
    assert (h1 = h) by congruence. subst h1.
    assert (d1 = d0). { destruct S0 as [[A _]|(text2 & A & [[B _]|[_ B]])]; [congruence| |congruence]. assert (text2 = text0) by congruence. subst text2. destruct text0 as [|c [|c2 text0]]; cbn in B; [discriminate| |lia]. exfalso. revert L0. clear. destruct c as [[] [] [] [] [] [] [] []]; vm_compute; discriminate. }
    subst d1. destruct (string_dec (fmt2 T0) (fmt2 T')) as [D|D]; [exists text, d', h, (JObj temp); rewrite D; auto 10|].
    assert (NH : ~ In (fmt2 T0) (hash_names t)). { assert (P : fmt2 T0 <> "hash_vib"). { destruct (fmt2_dot T0) as (a & b & ->). intros X. apply (f_equal (fun s => existsb (Ascii.eqb ".") (chars s))) in X. rewrite chars_app, existsb_app in X. cbn in X. rewrite orb_true_r in X. discriminate. } destruct t; cbn; try destruct CT; intros [X|[]]; congruence. }
    destruct (K (fmt2 T0) D NH) as [K2 _]. exists text, d', h, v. rewrite K2; [auto 10|]. split; [rewrite HG; exact G1|]. intros ->. destruct CT.
Qed.
(** C95: after a calculation has succeeded it is not started again, nor is any other that was done *)
Theorem C95_done py_float bin fs g t T T' bt out err fs' f h p : (forall s x, py_float s = Ok x -> float_text x) -> coupled t ->
  target g t = Ok p -> hash_vib g = Some h -> hash_vib f = Some h -> fmt2 T' = fmt2 T -> ~ (T' == 0)%Q ->
  base_func py_float bin fs g t (beta_of_T T') bt out err = (fs', Ok tt) ->
  already fs' f p T = Ok true /\ (forall q T0, already fs f q T0 = Ok true -> already fs' f q T0 = Ok true).
Proof.
  intros FT CT TG HG HF ET NZ E. destruct (base_finished py_float bin fs g t T T' bt out err fs' f h p FT CT TG HG HF ET NZ E) as [A B].
  split; [apply already_spec; exact A|]. intros q T0 X. apply already_spec. apply B.
  destruct (already_spec fs f q T0) as (_ & M & U & [F|[F|F]]); [exact F|rewrite (M F) in X; discriminate|destruct (U F) as [e Y]; congruence].
Qed.
(** C95: if all calculations are run one after the other with success, the script then starts nothing *)
Theorem C95_sequential py_float bin fs fs' g cwd root d r hv hr l : (forall s x, py_float s = Ok x -> float_text x) -> no_brace root = true ->
  hash_vib g = Some hv -> (forall t, coupled t -> target g t = Ok (results_at root d r t)) -> Forall (fun x => coupled (fst x)) l ->
  ran py_float bin g fs l fs' -> submit_loop (fun _ => fs') (hashed cwd root d r hv hr) 0 l = ([], Ok tt).
Proof.
  intros FT NB HG TG. set (f := hashed cwd root d r hv hr). intros F R.
  assert (A : (forall t T, In (t, T) l -> finished fs' f (results_at root d r t) T) /\ forall q T0, finished fs f q T0 -> finished fs' f q T0).
  { revert F. induction R as [fs|fs t T T' bt out err fs1 l fs2 E ET NZ R IH]; intros F; [split; [intros t T []|auto]|]. inv F. cbn [fst] in *.
    destruct (base_finished py_float bin fs g t T T' bt out err fs1 f hv (results_at root d r t) FT) as [B1 B2]; auto. destruct IH as [I1 I2]; [assumption|].
    split; [|auto]. intros t0 T0 [X|X]; [injection X as <- <-; auto|auto]. }
  destruct A as [A _]. clear R. assert (W : forall k, submit_loop (fun _ => fs') f k l = ([], Ok tt)); [|apply W].
  induction l as [|[t T] l IH]; intros k; [reflexivity|]. inv F. cbn [submit_loop]. rewrite (hashed_target cwd root d r hv hr t NB : target f t = _). cbn [bind].
  rewrite (proj1 (already_spec fs' f (results_at root d r t) T)) by (apply A; left; reflexivity). apply IH; [assumption|]. intros t0 T0 I. apply A. right. exact I.
Qed.
(** C95: the job, which is given the absolute path, uses the files the script has looked at *)
Theorem C95_same_files cwd root d r hv hr t : no_brace root = true -> no_brace (abspath cwd root) = true ->
  (root = abspath cwd root \/ (root = abspath cwd root ++ "/" /\ ends_with_slash (abspath cwd root) = false)) ->
  target (hashed cwd (abspath cwd root) d r hv hr) t = target (hashed cwd root d r hv hr) t.
Proof.
  intros N1 N2 H. rewrite !hashed_target by assumption. f_equal. unfold results_at. destruct H as [<-|[E S]]; [reflexivity|]. rewrite E at 2. rewrite !join_rel by reflexivity.
  rewrite S, ends_slash. rewrite append_assoc. reflexivity.
Qed.

(** ** findings *)
(** "two calculations that end with success are done": of two at the same time for the same basis size one is started again *)
Theorem C95_parallel_refuted : ~ (forall py_float w f B T1 T2 o1 o2 fs1 fs2 bt, (forall s x, py_float s = Ok x -> float_text x) ->
  base_func py_float "" (files w) f (Sos B) (beta_of_T T1) bt o1 "" = (fs1, Ok tt) -> base_func py_float "" (files w) f (Sos B) (beta_of_T T2) bt o2 "" = (fs2, Ok tt) ->
  fst (submit_loop (fun _ => files (run py_float w [Start 1 f (Sos B) (beta_of_T T1); Start 2 f (Sos B) (beta_of_T T2); Finish 1 o1 ""; Finish 2 o2 ""])) f 0 [(Sos B, T1); (Sos B, T2)]) = []).
Proof.
  intros H. specialize (H ex_float ex_w0 (ex_f "V1" "R1") 20%Z 300%Q 400%Q "Z_sos: 1.5" "Z_sos: 1.5").
  eassert (X : fst _ = []).
  { eapply H with (bt := "").
    - exact ex_float_text.
    - vm_compute. reflexivity.
    - vm_compute. reflexivity. }
  vm_compute in X. discriminate.
Qed.
(** "every missing result is started": a file that is just being written stops the script *)
Theorem C95_writing_refuted : ~ (forall world f B B' T, missing (world 1) f (results_at "/w" 1 0 (Sos B')) T -> In (job_text (path_root f) (id_data f) (id_rho f) (Sos B') T) (fst (generate_sos_results world f [T] [B; B']))).
Proof.
  intros H. specialize (H (fun _ p => if String.eqb p "/w/data_set_1/parameters/sos_B20.json" then Some "" else None) (ex_f "V1" "R1") 20%Z 40%Z 300%Q).
  assert (M : missing (fun p => if String.eqb p "/w/data_set_1/parameters/sos_B20.json" then Some "" else None) (ex_f "V1" "R1") (results_at "/w" 1 0 (Sos 40)) 300) by (left; vm_compute; reflexivity).
  specialize (H M). vm_compute in H. exact H.
Qed.
(** "a command can be made for every directory" *)
Theorem C95_brace_refuted : ~ (forall cwd root d r hv hr t T, coupled t -> exists c, job_command (hashed cwd root d r hv hr) t T = Ok c).
Proof. intros H. destruct (H "/" "/w{x}" 1%Z 0%Z "" "" (Sos 20) 300%Q I) as [c E]. vm_compute in E. discriminate. Qed.

(** ** the names of the systems, the wrappers *)
(** C95: the name belongs to the tens digit; the other digit is 1 to 6 *)
Lemma id_valid d : (exists l, In l [11; 21; 31; 41]%Z /\ (l <= d <= l + 5)%Z) <-> existsb (Z.eqb d) valid_ids = true.
Proof.
  split.
  - intros (l & I & B). apply existsb_exists. exists d. split; [|apply Z.eqb_refl]. cbn. cbn in I. intuition lia.
  - intros H. apply existsb_exists in H. destruct H as (x & I & E). apply Z.eqb_eq in E. subst x. cbn in I.
    repeat destruct I as [I|I]; try (subst d; (exists 11%Z; split; [cbn; auto 10|lia]) || (exists 21%Z; split; [cbn; auto 10|lia]) || (exists 31%Z; split; [cbn; auto 10|lia]) || (exists 41%Z; split; [cbn; auto 10|lia])). destruct I.
Qed.
Lemma id_digits d : (1 <= d / 10 <= 4)%Z -> (1 <= d mod 10 <= 6)%Z -> existsb (Z.eqb d) valid_ids = true.
Proof.
  intros V W. apply id_valid. pose proof (Z.div_mod d 10 ltac:(lia)) as DM. exists (10 * (d / 10) + 1)%Z. split; [|lia].
  assert (K : (d / 10 = 1 \/ d / 10 = 2 \/ d / 10 = 3 \/ d / 10 = 4)%Z) by lia. destruct K as [->|[->|[->| ->]]]; cbn; auto.
Qed.
Theorem C95_names d :
  (forall k n, nth_error ["superimposed"; "displaced"; "elevated"; "jahnteller"] k = Some n -> (d / 10 = Z.of_nat k + 1)%Z -> (1 <= d mod 10 <= 6)%Z -> get_system_name d = Ok n) /\
  (~ (1 <= d / 10 <= 4 /\ 1 <= d mod 10 <= 6)%Z -> get_system_name d = Raise AssertionError).
Proof.
  pose proof (Z.div_mod d 10 ltac:(lia)) as DM. split.
  - intros k n E D M. assert (K : (d = 10 * (Z.of_nat k + 1) + d mod 10)%Z) by lia. assert (J : exists j, (j < 6)%nat /\ (d mod 10 = Z.of_nat j + 1)%Z) by (exists (Z.to_nat (d mod 10 - 1)); lia).
    destruct J as (j & J & JE). rewrite JE in K. clear - K J E. subst d.
    destruct k as [|[|[|[|k]]]]; [| | | |destruct k; discriminate]; injection E as <-; do 6 (destruct j as [|j]; [reflexivity|]); lia.
  - intros N. unfold get_system_name, assert_id_data_is_valid. destruct (existsb (Z.eqb d) valid_ids) eqn:V; [|reflexivity]. apply id_valid in V. destruct V as (l & I & B). destruct N.
    pose proof (Z.mod_pos_bound d 10 ltac:(lia)) as MB. cbn in I. destruct I as [<-|[<-|[<-|[<-|[]]]]]; lia.
Qed.
(** C95: nothing is started for an unknown data set or without both model files *)
Theorem C95_wrapper H cwd root_is_dir world root d Bs Ts Ps : 
  let valid := (1 <= d / 10 <= 4 /\ 1 <= d mod 10 <= 6)%Z in
  let vm := path_vib_model (build_fs cwd root d 0) in let rm := path_rho_model (build_fs cwd root d 0) in
  (~ valid \/ root_is_dir = false \/ world 0 vm = None \/ world 0 rm = None ->
     simple_sos_wrapper H cwd root_is_dir world root d Bs Ts = ([], Raise AssertionError) /\ simple_trotter_wrapper H cwd root_is_dir world root d Bs Ts Ps = ([], Raise AssertionError)) /\
  (forall cv cr, valid -> root_is_dir = true -> world 0 vm = Some cv -> world 0 rm = Some cr ->
     simple_sos_wrapper H cwd root_is_dir world root d Bs Ts = generate_sos_results world (hashed cwd root d 0 (H cv) (H cr)) Ts Bs /\
     simple_trotter_wrapper H cwd root_is_dir world root d Bs Ts Ps = generate_trotter_results world (hashed cwd root d 0 (H cv) (H cr)) Ts Bs Ps).
Proof.
  intros valid vm rm. destruct (C95_names d) as [A B].
  assert (V1 : valid -> assert_id_data_is_valid d = Ok tt).
  { intros [V W]. unfold assert_id_data_is_valid. rewrite id_digits by assumption. reflexivity. }
  assert (V2 : assert_id_data_is_valid d = Ok tt \/ assert_id_data_is_valid d = Raise AssertionError) by (unfold assert_id_data_is_valid; destruct (existsb _ _); auto).
  assert (V3 : ~ valid -> assert_id_data_is_valid d = Raise AssertionError).
  { intros N. specialize (B N). unfold get_system_name in B. destruct V2 as [V2|V2]; [|exact V2]. rewrite V2 in B. cbn [bind] in B. destruct (filter _ _); discriminate. }
  assert (G : forall sub, (~ valid \/ root_is_dir = false \/ world 0 vm = None \/ world 0 rm = None -> simple_wrapper H cwd root_is_dir (world 0) root d sub = ([], Raise AssertionError)) /\
     (forall cv cr, valid -> root_is_dir = true -> world 0 vm = Some cv -> world 0 rm = Some cr -> simple_wrapper H cwd root_is_dir (world 0) root d sub = sub (hashed cwd root d 0 (H cv) (H cr)))).
  { intros sub. unfold simple_wrapper, new_fs. split.
    - intros C. destruct V2 as [V2|V2]; rewrite V2; [|reflexivity]. cbn [bind]. destruct root_is_dir; [|reflexivity]. cbn [passert bind fst].
      unfold generate_model_hashes, file_hash. change (has_hashes (build_fs cwd root d 0)) with false. cbn [andb negb]. fold vm. destruct C as [C|[C|[C|C]]]; [rewrite (V3 C) in V2; discriminate|discriminate|rewrite C; reflexivity|].
      destruct (world 0 vm) as [cv|]; [|reflexivity]. change (path_rho_model (set_hash_vib _ _)) with rm. rewrite C. reflexivity.
    - intros cv cr V -> E1 E2. rewrite (V1 V). cbn [passert bind fst]. unfold generate_model_hashes, file_hash. change (has_hashes (build_fs cwd root d 0)) with false. cbn [andb negb]. fold vm. rewrite E1.
      change (path_rho_model (set_hash_vib _ _)) with rm. rewrite E2. reflexivity. }
  unfold simple_sos_wrapper, simple_trotter_wrapper. split.
  - intros C. split; apply G; exact C.
  - intros cv cr V R E1 E2. split; [exact (proj2 (G _) cv cr V R E1 E2)|exact (proj2 (G _) cv cr V R E1 E2)].
Qed.
(** C95: the analytical results of the sampling model are always computed again *)
Theorem C95_sampling cwd root d r hv hr Ts : no_brace (abspath cwd root) = true ->
  ((1 <= d / 10 <= 4 /\ 1 <= d mod 10 <= 6)%Z -> generate_sampling_analytical_results (hashed cwd root d r hv hr) Ts = (map (job_text (abspath cwd root) d r Sampling) Ts, Ok tt)) /\
  (~ (1 <= d / 10 <= 4 /\ 1 <= d mod 10 <= 6)%Z -> generate_sampling_analytical_results (hashed cwd root d r hv hr) Ts = ([], Raise AssertionError)).
Proof.
  intros NB. unfold generate_sampling_analytical_results. change (id_data (hashed cwd root d r hv hr)) with d. split.
  - intros [V W]. unfold assert_id_data_is_valid. rewrite id_digits by assumption. cbn [passert].
    induction Ts as [|T Ts IH]; [reflexivity|]. cbn [fold_right map]. rewrite IH. rewrite (C95_text (hashed cwd root d r hv hr) Sampling T NB) by discriminate. reflexivity.
  - intros N. destruct (C95_names d) as [_ B]. specialize (B N). unfold get_system_name, assert_id_data_is_valid in *. destruct (existsb _ _); [|reflexivity]. cbn [passert bind] in B. destruct (filter _ _); discriminate.
Qed.

(** ** examples *)
Definition ex_w : fstruct := hashed "/" "/w" 11 0 "V" "R".
Definition ex_done : string := dumps (JObj [("hash_vib", JStr "V"); ("300.00", JObj [("Z_sos", JFloat "1.5")])]).
Definition ex_old : string := dumps (JObj [("hash_vib", JStr "U"); ("300.00", JObj [("Z_sos", JFloat "1.5")])]).
Definition ex_files : fsys string := fun p =>
  if String.eqb p "/w/data_set_11/parameters/sos_B20.json" then Some ex_done else if String.eqb p "/w/data_set_11/parameters/sos_B40.json" then Some ex_old
  else if String.eqb p "/w/data_set_11/parameters/coupled_model.json" then Some "V" else if String.eqb p "/w/data_set_11/rho_0/parameters/sampling_model.json" then Some "R" else None.
Example C95_text_ex : no_brace (path_root ex_w) = true /\
  job_text "/w" 11 0 (Sos 20) 300 = "srun --job-name=sos_D11_T300.00 --mem=20GB python3 -c 'import pibronic;from pibronic.data import file_structure as fs;from pibronic import julia_wrapper as jw;from pibronic.constants import beta;b = beta(300.00);BS = 20;FS = fs.FileStructure(" ++ quote ++ "/w" ++ quote ++ ", 11, 0);FS.generate_model_hashes();jw.prepare_julia();pibronic.julia_wrapper.sos_of_coupled_model(FS, BS, b);'".
Proof. split; vm_compute; reflexivity. Qed.
(** the first is done, the second has another temperature, the third is of another model, the last is absent *)
Example C95_sos_ex : no_brace "/w" = true /\ no_brace (abspath "/" "/w") = true /\
  generate_sos_results (fun _ => ex_files) ex_w [300%Q; 400%Q] [20%Z; 40%Z] = (map (fun x => job_text "/w" 11 0 (Sos (fst x)) (snd x)) [(20%Z, 400%Q); (40%Z, 300%Q); (40%Z, 400%Q)], Ok tt) /\
  fst (generate_trotter_results (fun _ => ex_files) ex_w [300%Q] [20%Z] [4%Z; 8%Z]) = map (fun P => job_text "/w" 11 0 (Trotter P 20) 300) [4%Z; 8%Z].
Proof. repeat split; vm_compute; reflexivity. Qed.
Example C95_started_ex : submits (job_text "/w" 11 0) (results_at "/w" 11 0) (fun _ => ex_files) ex_w 0 [(Sos 20, 300%Q); (Sos 60, 300%Q)] [job_text "/w" 11 0 (Sos 60) 300] true.
Proof.
  apply sub_skip; [|apply sub_start; [left; vm_compute; reflexivity|constructor]].
  exists ex_done, [("hash_vib", JStr "V"); ("300.00", JObj [("Z_sos", JFloat "1.5")])], "V", (JObj [("Z_sos", JFloat "1.5")]). repeat split; vm_compute; reflexivity.
Qed.
(** the job of a result at 400 K, and what is then started *)
Example C95_sequential_ex : exists fs', ran ex_float "" ex_w ex_files [(Sos 20, 400%Q)] fs' /\ (forall t, coupled t -> target ex_w t = Ok (results_at "/w" 11 0 t)) /\
  submit_loop (fun _ => fs') ex_w 0 [(Sos 20, 300%Q); (Sos 20, 400%Q)] = ([], Ok tt).
Proof.
  eexists. split; [eapply (ran_job ex_float "" ex_w ex_files (Sos 20) 400%Q 400%Q "29" "Z_sos: 1.5" ""); [vm_compute; reflexivity|reflexivity|discriminate|apply ran_end]|].
  split; [intros t _; apply hashed_target; reflexivity|vm_compute; reflexivity].
Qed.
Example C95_same_files_ex : abspath "/" "/w/" ++ "/" = "/w/" /\ ends_with_slash (abspath "/" "/w/") = false.
Proof. split; vm_compute; reflexivity. Qed.
Example C95_names_ex : get_system_name 42 = Ok "jahnteller" /\ get_system_name 47 = Raise AssertionError.
Proof. split; reflexivity. Qed.
Example C95_wrapper_ex : ex_files (path_vib_model (build_fs "/" "/w" 11 0)) = Some "V" /\ ex_files (path_rho_model (build_fs "/" "/w" 11 0)) = Some "R" /\
  simple_sos_wrapper (fun s => s) "/" true (fun _ => ex_files) "/w" 11 [20%Z] [300%Q] = ([], Ok tt).
Proof. repeat split; vm_compute; reflexivity. Qed.

Print Assumptions C95_text.
Print Assumptions C95_quotes.
Print Assumptions C95_sos.
Print Assumptions C95_trotter.
Print Assumptions C95_started.
Print Assumptions C95_done.
Print Assumptions C95_sequential.
Print Assumptions C95_same_files.
Print Assumptions C95_parallel_refuted.
Print Assumptions C95_writing_refuted.
Print Assumptions C95_brace_refuted.
Print Assumptions C95_names.
Print Assumptions C95_wrapper.
Print Assumptions C95_sampling.
