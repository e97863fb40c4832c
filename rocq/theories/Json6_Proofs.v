(** Every value json.loads returns is well formed. *)
From Verif Require Import Common Common_Proofs PyStr_Model PyStr_Proofs Json_Model Json_Spec Json_Proofs.
Local Open Scope string_scope.
Local Open Scope nat_scope.

Definition wf (v : json) : Prop := every (fun _ => True) float_text (@NoDup string) v.

Lemma take_digits_chars s : digit_chars (fst (take_digits s)).
Proof.
  induction s as [|c s IH]; cbn; [intros ? []|]. destruct (isdig c) eqn:D; [|intros ? []].
  destruct (take_digits s) as [d r]. cbn in *. intros x [<-|I]; [apply isdig_digit; auto|apply IH; auto].
Qed.
Lemma scan_frac_text s fp r : scan_frac s = (fp, r) -> frac_text fp.
Proof.
  unfold scan_frac. destruct (eat "." s) as [s'|]; [|intros E; inv E; left; auto].
  pose proof (take_digits_chars s') as D. destruct (take_digits s') as [d r']. cbn in D.
  destruct (String.eqb_spec d ""); intros E; inv E; [left; auto|]. right. exists d. auto.
Qed.
Lemma scan_exp_text s ep r : scan_exp s = (ep, r) -> exp_text ep.
Proof.
  unfold scan_exp. destruct s as [|c s']; [intros E; inv E; left; auto|].
  destruct (Ascii.eqb c "e" || Ascii.eqb c "E") eqn:C; [|intros E; inv E; left; auto].
  assert (HE : String c "" = "e" \/ String c "" = "E") by (apply orb_true_iff in C; destruct C as [C|C]; apply Ascii.eqb_eq in C; subst; auto).
  assert (G : forall sg s'', (sg = "" \/ sg = "+" \/ sg = "-") ->
             (let (d, r) := take_digits s'' in if String.eqb d "" then ("", String c s') else (String c (sg ++ d), r)) = (ep, r) -> exp_text ep).
  { intros sg s'' SG. pose proof (take_digits_chars s'') as D. destruct (take_digits s'') as [d r']. cbn in D.
    destruct (String.eqb_spec d ""); intros E; inv E; [left; auto|]. right. exists (String c ""), sg, d. auto 8. }
  destruct s' as [|g r']; [apply (G ""); auto|].
  destruct (Ascii.eqb g "+" || Ascii.eqb g "-") eqn:GS; [|apply (G ""); auto].
  apply (G (String g "")). apply orb_true_iff in GS. destruct GS as [X|X]; apply Ascii.eqb_eq in X; subst; auto.
Qed.
Lemma scan_int_text s ip r : scan_int s = Some (ip, r) -> int_text ip.
Proof.
  unfold scan_int. destruct s as [|c s']; [discriminate|]. destruct (Ascii.eqb_spec c "0") as [->|N]; [intros E; inv E; left; auto|].
  destruct (isdig c) eqn:D; [|discriminate]. pose proof (take_digits_chars s') as T. destruct (take_digits s') as [d r']. cbn in T.
  intros E. inv E. right. exists c, d. split; auto. split; auto. apply isdig_digit in D.
  assert (nat_of_ascii c <> 48). { intros X. apply N. rewrite <- (ascii_nat_embedding c), X. reflexivity. }
  lia.
Qed.
Lemma scan_number_wf s v r : scan_number s = Some (v, r) -> wf v.
Proof.
  unfold scan_number.
  assert (SG : exists sg s0, (match eat "-" s with Some r => ("-", r) | None => ("", s) end) = (sg, s0) /\ (sg = "" \/ sg = "-")) by (destruct (eat "-" s); eauto 6).
  destruct SG as (sg & s0 & -> & SG). destruct (scan_int s0) as [[ip s1]|] eqn:I; [|discriminate].
  destruct (scan_frac s1) as [fp s2] eqn:F. destruct (scan_exp s2) as [ep s3] eqn:E.
  destruct (String.eqb fp "" && String.eqb ep "") eqn:Z.
  - destruct (py_int_str (sg ++ ip)); [|discriminate]. intros X. inv X. exact Logic.I.
  - intros X. inv X. cbn. right. right. right. exists sg, ip, fp, ep.
    split; auto. split; auto. split; [eapply scan_int_text; eauto|]. split; [eapply scan_frac_text; eauto|]. split; [eapply scan_exp_text; eauto|].
    apply andb_false_iff in Z. destruct Z as [Z|Z]; apply String.eqb_neq in Z; auto.
Qed.
Lemma scan_literal_wf s v r : scan_literal literals s = Some (v, r) -> wf v.
Proof.
  unfold literals. cbn [scan_literal]. repeat (destruct (after _ s); [intros X; inv X; cbn; unfold float_text; auto|]). discriminate.
Qed.
Lemma wf_arr l : wf (JArr l) <-> Forall wf l. Proof. apply every_arr. Qed.
Lemma wf_obj l : wf (JObj l) <-> NoDup (map fst l) /\ Forall (fun kv => wf (snd kv)) l.
Proof.
  unfold wf. rewrite every_obj. split; intros [A B]; split; auto; eapply Forall_impl; try exact B; cbn; intros ? X; [tauto|split; auto].
Qed.
Lemma dset_wf acc k v : NoDup (map fst acc) -> Forall (fun kv => wf (snd kv)) acc -> wf v ->
  NoDup (map fst (oset acc k v)) /\ Forall (fun kv => wf (snd kv)) (oset acc k v).
Proof.
  intros N F W. split; [apply dset_NoDup; auto; apply String.eqb_eq|]. unfold oset. clear N.
  induction F as [|[k' v'] acc X F IH]; cbn; [repeat constructor; auto|]. destruct (String.eqb k k'); constructor; auto.
Qed.
Lemma parse_wf fuel :
  (forall s v r, parse fuel s = Ok (v, r) -> wf v) /\
  (forall s l r, parse_items fuel s = Ok (l, r) -> Forall wf l) /\
  (forall s acc l r, parse_members fuel s acc = Ok (l, r) -> NoDup (map fst acc) -> Forall (fun kv => wf (snd kv)) acc ->
     NoDup (map fst l) /\ Forall (fun kv => wf (snd kv)) l).
Proof.
  induction fuel as [|fuel (IP & II & IM)]; [repeat split; cbn; discriminate|]. split; [|split].
  - intros s v r E. cbn [parse] in E. destruct s as [|c s1]; [discriminate|].
    destruct (nat_of_ascii c =? 34).
    { destruct (scan_string s1) as [[a b]|]; cbn [bind fst snd] in E; inv E. exact Logic.I. }
    destruct (Ascii.eqb c "[").
    { destruct (eat "]" (skip_ws s1)); [inv E; apply wf_arr; constructor|].
      destruct (parse_items fuel (skip_ws s1)) as [[a b]|] eqn:P; cbn [bind fst snd] in E; inv E. apply wf_arr. eapply II; eauto. }
    destruct (Ascii.eqb c "{").
    { destruct (eat "}" (skip_ws s1)); [inv E; apply wf_obj; split; constructor|].
      destruct (parse_members fuel (skip_ws s1) []) as [[a b]|] eqn:P; cbn [bind fst snd] in E; inv E. apply wf_obj. eapply IM; eauto; constructor. }
    destruct (scan_literal literals (String c s1)) as [[a b]|] eqn:L; [inv E; eapply scan_literal_wf; eauto|].
    destruct (scan_number (String c s1)) as [[a b]|] eqn:Q; inv E. eapply scan_number_wf; eauto.
  - intros s l r E. cbn [parse_items] in E. destruct (parse fuel s) as [[v r1]|] eqn:P; cbn [bind fst snd] in E; [|discriminate].
    apply IP in P. destruct (eat "]" (skip_ws r1)); [inv E; auto|]. destruct (eat "," (skip_ws r1)) as [r2|]; [|discriminate].
    destruct (parse_items fuel (skip_ws r2)) as [[l' r3]|] eqn:Q; cbn [bind fst snd] in E; inv E. constructor; auto. eapply II; eauto.
  - intros s acc l r E N F. cbn [parse_members] in E. destruct s as [|c s1]; [discriminate|].
    destruct (nat_of_ascii c =? 34); [|discriminate]. destruct (scan_string s1) as [[k r1]|]; cbn [bind fst snd] in E; [|discriminate].
    destruct (eat ":" (skip_ws r1)) as [s2|]; [|discriminate].
    destruct (parse fuel (skip_ws s2)) as [[v r2]|] eqn:P; cbn [bind fst snd] in E; [|discriminate]. apply IP in P.
    destruct (dset_wf acc k v N F P) as [N' F'].
    destruct (eat "}" (skip_ws r2)); [inv E; auto|]. destruct (eat "," (skip_ws r2)); [|discriminate]. eapply IM; eauto.
Qed.
Lemma every_weaken (f1 f2 : string -> Prop) (k1 k2 : list string -> Prop) v :
  (forall s, f1 s -> f2 s) -> (forall s, k1 s -> k2 s) -> every (fun _ => True) f1 k1 v -> every (fun _ => True) f2 k2 v.
Proof.
  intros B D. induction v as [ |b|z|t|s|l IH|l IH] using json_ind'; intros V; auto.
  - cbn in *. auto.
  - apply every_arr. apply every_arr in V. rewrite Forall_forall in *. auto.
  - apply every_obj. apply every_obj in V. destruct V as [K V]. split; auto. rewrite Forall_forall in *.
    intros x H. destruct (V x H). split; auto.
Qed.
Theorem loads_wf s v : loads s = Ok v -> valid v /\ distinct v.
Proof.
  unfold loads. intros E. apply bind_ok in E. destruct E as ([a r] & P & E). cbn [fst snd] in E.
  destruct (skip_ws r); [|discriminate]. assert (a = v) by congruence. subst a. apply (proj1 (parse_wf _)) in P.
  split; [eapply every_weaken; [| |exact P]|eapply every_weaken; [| |exact P]]; auto.
Qed.
