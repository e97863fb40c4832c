From Coq Require Import QArith Qabs Lia Lqa.
From Verif Require Import Common Common_Proofs PyStr_Model PyStr_Proofs ModelOp_Model ModelOp_Proofs Json_Spec Julia_Spec Auto_Model Auto_Spec.
Local Open Scope string_scope.
Local Open Scope nat_scope.
Local Open Scope list_scope.

(** ** readers *)
(** [p] takes exactly the lines [c] and gives [a] *)
Definition reads {A} (p : reader A) (c : list string) (a : A) : Prop := forall rest, p (c ++ rest) = Ok (a, rest).
(** every proper beginning of [c] is too short *)
Definition short {A} (p : reader A) (c : list string) : Prop := forall c1 x c2, c = c1 ++ x :: c2 -> p c1 = Raise OtherException.

Lemma reads_ret {A} (a : A) : reads (ret a) [] a.
Proof. intros rest. reflexivity. Qed.
Lemma reads_lift {A} (r : res A) a : r = Ok a -> reads (lift r) [] a.
Proof. intros -> rest. reflexivity. Qed.
Lemma reads_next x : reads next_line [x] x.
Proof. intros rest. reflexivity. Qed.
Lemma reads_bind {A B} (p : reader A) (q : A -> reader B) c d a b : reads p c a -> reads (q a) d b -> reads (rbind p q) (c ++ d) b.
Proof. intros P Q rest. unfold rbind. rewrite <- app_assoc, P. apply Q. Qed.
Lemma short_nil {A} (p : reader A) : short p [].
Proof. intros [|] x c2 E; discriminate. Qed.
Lemma short_next x : short next_line [x].
Proof. intros [|y c1] z c2 E; [reflexivity|]. injection E as -> E. destruct c1; discriminate. Qed.
Lemma short_bind {A B} (p : reader A) (q : A -> reader B) c d a : reads p c a -> short p c -> short (q a) d -> short (rbind p q) (c ++ d).
Proof.
  intros R P Q c1 x c2 E. unfold rbind. destruct (le_lt_dec (length c) (length c1)) as [L|L].
  - assert (E1 : c1 = c ++ skipn (length c) c1).
    { rewrite <- (firstn_skipn (length c) c1) at 1. f_equal. apply (f_equal (firstn (length c))) in E. rewrite firstn_app, firstn_all, Nat.sub_diag, firstn_O, app_nil_r in E.
      rewrite firstn_app in E. replace (length c - length c1) with 0 in E by lia. rewrite firstn_O, app_nil_r in E. symmetry. exact E. }
    rewrite E1, R. apply (Q (skipn (length c) c1) x c2). rewrite E1 in E. rewrite <- app_assoc in E. apply app_inv_head in E. exact E.
  - assert (E1 : exists y c3, c = c1 ++ y :: c3).
    { exists x. exists (skipn (S (length c1)) c). apply (f_equal (firstn (length c))) in E. rewrite firstn_app, firstn_all, Nat.sub_diag, firstn_O, app_nil_r in E.
      rewrite firstn_app in E. rewrite (firstn_all2 c1) in E by lia. destruct (length c - length c1) eqn:D; [lia|]. cbn [firstn] in E. rewrite E at 1. f_equal. f_equal.
      rewrite E. change (c1 ++ x :: firstn n c2) with (c1 ++ [x] ++ firstn n c2). rewrite app_assoc. rewrite skipn_app, skipn_all2 by (rewrite app_length; cbn; lia). rewrite app_length. cbn [length].
      replace (S (length c1) - (length c1 + 1)) with 0 by lia. reflexivity. }
    destruct E1 as (y & c3 & E1). rewrite (P _ _ _ E1). reflexivity.
Qed.
(** loops *)
Lemma reads_for {I A} (l : list I) (body : I -> A -> reader A) (chunk : I -> list string) (f : I -> A -> A) a :
  (forall i a, In i l -> reads (body i a) (chunk i) (f i a)) -> reads (for_lines l body a) (flat_map chunk l) (fold_left (fun a i => f i a) l a).
Proof.
  revert a. induction l as [|i l IH]; intros a H; cbn [for_lines flat_map fold_left]; [apply reads_ret|].
  eapply reads_bind; [apply H; left; reflexivity|]. apply IH. intros j b J. apply H. right. exact J.
Qed.
Lemma short_for {I A} (l : list I) (body : I -> A -> reader A) (chunk : I -> list string) (f : I -> A -> A) a :
  (forall i a, In i l -> reads (body i a) (chunk i) (f i a)) -> (forall i a, In i l -> short (body i a) (chunk i)) -> short (for_lines l body a) (flat_map chunk l).
Proof.
  revert a. induction l as [|i l IH]; intros a H S; cbn [for_lines flat_map]; [apply short_nil|].
  eapply short_bind; [apply H; left; reflexivity|apply S; left; reflexivity|]. apply IH; intros; [apply H|apply S]; right; assumption.
Qed.

(** ** texts *)
Lemma concat_cons2 sep a b l : String.concat sep (a :: b :: l) = (a ++ sep ++ String.concat sep (b :: l))%string.
Proof. reflexivity. Qed.
Lemma concat_split sep s : sep <> "" -> String.concat sep (split sep s) = s.
Proof.
  intros NE. unfold split. remember (String.length s) as n eqn:L. assert (LE : String.length s <= n) by lia. clear L. revert s LE.
  induction n as [|n IH]; intros s LE; [destruct s; [reflexivity|cbn in LE; lia]|].
  destruct s as [|c s]; [reflexivity|]. cbn [split_go]. destruct (String.prefix sep (String c s)) eqn:P.
  - destruct sep as [|x sep]; [congruence|]. apply prefix_true in P. destruct P as [t P]. cbn [String.append] in P. injection P as -> ->.
    cbn [String.length Nat.sub]. rewrite Nat.sub_0_r, split_go_skip.
    pose proof (split_go_not_nil (String x sep) 0 t) as NN. destruct (split_go (String x sep) 0 t) as [|h r] eqn:E; [congruence|].
    rewrite concat_cons2, <- E, IH; [reflexivity|]. cbn [String.length] in LE. rewrite append_length in LE. lia.
  - cbn [String.length] in LE. specialize (IH s ltac:(lia)). destruct (split_go sep 0 s) as [|h t] eqn:E.
    + exfalso. exact (split_go_not_nil sep 0 s E).
    + destruct t as [|k t]; [cbn in IH |- *; congruence|]. rewrite concat_cons2 in *. cbn [String.append]. rewrite IH. reflexivity.
Qed.
Lemma prefix_cut p x y : String.prefix p (x ++ y) = true -> String.length p <= String.length x -> String.prefix p x = true.
Proof.
  revert x. induction p as [|c p IH]; intros x P L; [destruct x; reflexivity|]. destruct x as [|d x]; [cbn in L; lia|]. cbn in *. destruct (ascii_dec c d); [|discriminate]. apply IH; [exact P|lia].
Qed.
Lemma contains_not p s : ~ occurs p s -> contains p s = false.
Proof. intros N. destruct (contains p s) eqn:E; [|reflexivity]. exfalso. apply N. apply contains_spec. exact E. Qed.
(** no occurrence of the separator ends before its first full copy *)
Lemma no_start_init i z b pre : contains (i ++ String z "") (pre ++ i) = false -> no_start (i ++ String z "") ((i ++ String z "") ++ b) pre.
Proof.
  induction pre as [|c pre IH]; intros N; constructor.
  - cbn [String.append contains] in N. apply orb_false_iff in N. destruct N as [N _]. match goal with |- ?x = false => destruct x eqn:P; [exfalso|reflexivity] end. enough (X : String.prefix (i ++ String z "") (String c (pre ++ i)) = true) by congruence.
    apply (prefix_cut _ (String c (pre ++ i)) (String z "" ++ b)).
    + rewrite <- P. f_equal. cbn [String.append]. f_equal. rewrite !append_assoc. reflexivity.
    + cbn [String.length]. rewrite !append_length. cbn. lia.
  - apply IH. cbn [String.append contains] in N. apply orb_false_iff in N. tauto.
Qed.
Lemma partition_spec i z pre post : contains (i ++ String z "") (pre ++ i) = false ->
  before_ (i ++ String z "") (pre ++ (i ++ String z "") ++ post) = pre /\ after_ (i ++ String z "") (pre ++ (i ++ String z "") ++ post) = post.
Proof.
  intros N. assert (NE : (i ++ String z "")%string <> "") by (destruct i; discriminate). unfold before_, after_. rewrite split_first; [|exact NE|apply no_start_init; exact N]. split; [reflexivity|]. apply concat_split. exact NE.
Qed.

(** ** folds *)
Lemma fold_set {K V} (eqk : K -> K -> bool) (E : forall x y, eqk x y = true <-> x = y) (l : list K) (v : K -> V) (f0 : K -> V) k :
  fold_left (fun (f : K -> V) i => fun k => if eqk k i then v i else f k) l f0 k = if existsb (eqk k) l then v k else f0 k.
Proof.
  revert f0. induction l as [|i l IH]; intros f0; cbn [fold_left existsb]; [reflexivity|]. rewrite IH. destruct (eqk k i) eqn:X; cbn [orb].
  - apply E in X. subst i. destruct (existsb (eqk k) l); reflexivity.
  - reflexivity.
Qed.
Lemma step {A B} (p : reader A) (q : A -> reader B) c d a : reads p c a -> rbind p q (c ++ d) = q a d.
Proof. intros P. unfold rbind. rewrite P. reflexivity. Qed.

Section Auto.
  Context (read_pair : string -> res (Q * Q)) (read_gradient read_int_record : string -> res unit) (py_float : string -> res Q).
  Notation rm := (read_matrix read_pair).
  Notation ra := (read_auto read_pair read_gradient read_int_record py_float).
  Notation readf := (read_model_auto_file read_pair read_gradient read_int_record py_float).

  Definition filled (v : nat -> nat -> Q) (m : matrix) : matrix := set_row (set_row m 0 (v 0 0, v 0 1)) 1 (v 1 0, v 1 1).
  Lemma filled_at v m a b : a < 2 -> b < 2 -> filled v m a b = v a b.
  Proof. intros A B. destruct a as [|[|]]; [| |lia]; destruct b as [|[|]]; try lia; reflexivity. Qed.

  Notation rows := (rows read_pair).
  Notation holds := (holds read_pair read_gradient read_int_record py_float).
  Lemma reads_matrix r v m : rows r v -> reads (rm m) [r 0; r 1] (filled v m).
  Proof.
    intros H rest. unfold read_matrix, el_range, filled. cbn [seq for_lines]. unfold rbind, next_line, lift, ret. cbn [app]. rewrite (H 0), (H 1) by lia. reflexivity.
  Qed.
  Lemma short_matrix r v m : rows r v -> short (rm m) [r 0; r 1].
  Proof.
    intros H c1 x c2 E. unfold read_matrix, el_range. cbn [seq for_lines]. unfold rbind, next_line, lift, ret.
    destruct c1 as [|y [|z c1]]; injection E as E; [reflexivity| |].
    - subst y. rewrite (H 0) by lia. reflexivity.
    - destruct c1; discriminate.
  Qed.

  Lemma reads_header x v : holds x v -> reads (read_header read_int_record) [h x 0; h x 1; h x 2; h x 3] tt.
  Proof. intros H rest. unfold read_header, rbind, next_line, lift, ret. cbn [app]. rewrite !(H_h _ _ _ _ _ _ H) by lia. reflexivity. Qed.
  Lemma short_header x v : holds x v -> short (read_header read_int_record) [h x 0; h x 1; h x 2; h x 3].
  Proof.
    intros H c1 y c2 E. unfold read_header, rbind, next_line, lift, ret.
    do 4 (destruct c1 as [|? c1]; [cbn [app] in *; injection E as E; intros; subst; rewrite ?(H_h _ _ _ _ _ _ H) by lia; reflexivity|cbn [app] in E; injection E as ? E; subst]).
    destruct c1; discriminate.
  Qed.

  Definition frequency_body := fun (i : nat) (w : nat -> Q) => rbind next_line (fun l => rbind (lift (py_float (before_ "eV" (after_ "cm-1" l)))) (fun x =>
             ret (fun i' => if i' =? i then x else w i'))).
  Lemma number_between pre num post : contains "cm-1" (pre ++ "cm-") = false -> contains "eV" (num ++ "e") = false ->
    before_ "eV" (after_ "cm-1" (pre ++ "cm-1" ++ num ++ "eV" ++ post)) = num.
  Proof.
    intros A B. destruct (partition_spec "cm-" "1"%char pre (num ++ "eV" ++ post) A) as [_ P]. change ("cm-" ++ "1")%string with "cm-1" in P. rewrite P.
    destruct (partition_spec "e" "V"%char num post B) as [P' _]. exact P'.
  Qed.
  Lemma reads_frequency x v i u : holds x v -> i < 12 -> reads (frequency_body i u) [w x i] (fun i' => if i' =? i then freq v i else u i').
  Proof.
    intros H I. destruct (H_w _ _ _ _ _ _ H i I) as (pre & num & post & E & A & B & F). change [w x i] with ([w x i] ++ [] ++ []).
    eapply reads_bind; [apply reads_next|]. eapply reads_bind; [apply reads_lift|apply reads_ret]. rewrite E, number_between by (apply contains_not; assumption). exact F.
  Qed.
  Lemma short_one {A} (q : string -> reader A) y : short (rbind next_line q) [y].
  Proof. change [y] with ([y] ++ []). eapply short_bind; [apply reads_next|apply short_next|apply short_nil]. Qed.

  (** one gradient block *)
  Definition block (i : nat) (m : matrix) {B} (k : matrix -> B) : reader B :=
    rbind next_line (fun l => rbind (lift (read_gradient l)) (fun _ => rbind (rm m) (fun m => ret (k m)))).
  Lemma reads_block_k i tl r v m {B} (k : matrix -> B) : read_gradient tl = Ok tt -> rows r v -> reads (block i m k) [tl; r 0; r 1] (k (filled v m)).
  Proof.
    intros T H. change [tl; r 0; r 1] with ([tl] ++ [] ++ [r 0; r 1] ++ []). eapply reads_bind; [apply reads_next|]. eapply reads_bind; [apply reads_lift; exact T|].
    eapply reads_bind; [apply reads_matrix; exact H|]. apply reads_ret.
  Qed.
  Lemma short_block_k i tl r v m {B} (k : matrix -> B) : read_gradient tl = Ok tt -> rows r v -> short (block i m k) [tl; r 0; r 1].
  Proof.
    intros T H. change [tl; r 0; r 1] with ([tl] ++ [] ++ [r 0; r 1] ++ []). eapply short_bind; [apply reads_next|apply short_next|].
    eapply short_bind; [apply reads_lift; exact T|apply short_nil|]. eapply short_bind; [apply reads_matrix; exact H|eapply short_matrix; exact H|apply short_nil].
  Qed.
  Definition lin_set (v : vals) (i : nat) (c : nat -> matrix) : nat -> matrix := fun i' => if i' =? i then filled (lin v i) (c i) else c i'.
  Definition diag_set (v : vals) (i : nat) (c : nat -> nat -> matrix) : nat -> nat -> matrix :=
    fun i' j' => if (i' =? i) && (j' =? i) then filled (quad v i i) (c i i) else c i' j'.
  Definition off_set (v : vals) (ij : nat * nat) (c : nat -> nat -> matrix) : nat -> nat -> matrix :=
    fun i' j' => if (i' =? fst ij) && (j' =? snd ij) then filled (quad v (fst ij) (snd ij)) (c (fst ij) (snd ij)) else c i' j'.
  Notation lin0 v := (fold_left (fun a i => lin_set v i a) (seq 0 12) (fun _ _ _ => 0%Q)).
  Notation diag0 v := (fold_left (fun a i => diag_set v i a) (seq 0 12) (fun _ _ _ _ => 0%Q)).
  Notation off0 v := (fold_left (fun a i => off_set v i a) lower_pairs (diag0 v)).
  Definition sym (c : nat -> nat -> matrix) : nat -> nat -> matrix := fun i j a b => if i <? j then (c i j a b + c j i a b)%Q else c i j a b.

  Lemma reads_linear x v : holds x v -> reads (fill_in_linear_couplings read_pair read_gradient (fun _ _ _ => 0%Q)) (flat_map (fun i => [lt x i; l x i 0; l x i 1]) (seq 0 12)) (lin0 v).
  Proof.
    intros H. apply reads_for. intros i c I. apply in_seq in I. unfold lin_set.
    apply (reads_block_k i (lt x i) (l x i) (lin v i) (c i) (fun m i' => if i' =? i then m else c i')); [apply (H_lt _ _ _ _ _ _ H)|apply (H_l _ _ _ _ _ _ H)]; lia.
  Qed.
  Lemma short_linear x v : holds x v -> short (fill_in_linear_couplings read_pair read_gradient (fun _ _ _ => 0%Q)) (flat_map (fun i => [lt x i; l x i 0; l x i 1]) (seq 0 12)).
  Proof.
    intros H. eapply (short_for _ _ _ (lin_set v)); intros i c I; apply in_seq in I.
    - apply (reads_block_k i (lt x i) (l x i) (lin v i) (c i) (fun m i' => if i' =? i then m else c i')); [apply (H_lt _ _ _ _ _ _ H)|apply (H_l _ _ _ _ _ _ H)]; lia.
    - apply (short_block_k i (lt x i) (l x i) (lin v i) (c i) (fun m i' => if i' =? i then m else c i')); [apply (H_lt _ _ _ _ _ _ H)|apply (H_l _ _ _ _ _ _ H)]; lia.
  Qed.
  Lemma reads_diagonal x v : holds x v -> reads (fill_in_diagonal_quadratic_couplings read_pair read_gradient (fun _ _ _ _ => 0%Q)) (flat_map (fun i => [dt x i; d x i 0; d x i 1]) (seq 0 12)) (diag0 v).
  Proof.
    intros H. apply reads_for. intros i c I. apply in_seq in I. unfold diag_set.
    apply (reads_block_k i (dt x i) (d x i) (quad v i i) (c i i) (fun m i' j' => if (i' =? i) && (j' =? i) then m else c i' j')); [apply (H_dt _ _ _ _ _ _ H)|apply (H_d _ _ _ _ _ _ H)]; lia.
  Qed.
  Lemma short_diagonal x v : holds x v -> short (fill_in_diagonal_quadratic_couplings read_pair read_gradient (fun _ _ _ _ => 0%Q)) (flat_map (fun i => [dt x i; d x i 0; d x i 1]) (seq 0 12)).
  Proof.
    intros H. eapply (short_for _ _ _ (diag_set v)); intros i c I; apply in_seq in I.
    - apply (reads_block_k i (dt x i) (d x i) (quad v i i) (c i i) (fun m i' j' => if (i' =? i) && (j' =? i) then m else c i' j')); [apply (H_dt _ _ _ _ _ _ H)|apply (H_d _ _ _ _ _ _ H)]; lia.
    - apply (short_block_k i (dt x i) (d x i) (quad v i i) (c i i) (fun m i' j' => if (i' =? i) && (j' =? i) then m else c i' j')); [apply (H_dt _ _ _ _ _ _ H)|apply (H_d _ _ _ _ _ _ H)]; lia.
  Qed.
  Lemma in_lower ij : In ij lower_pairs <-> snd ij < fst ij /\ fst ij < 12.
  Proof.
    unfold lower_pairs, mode_range. rewrite in_flat_map. split.
    - intros (i & I & J). apply in_map_iff in J. destruct J as (j & <- & J). apply in_seq in I, J. cbn. lia.
    - destruct ij as [i j]. cbn [fst snd]. intros L. exists i. split; [apply in_seq; lia|]. apply in_map_iff. exists j. split; [reflexivity|]. apply in_seq. lia.
  Qed.
  Definition off_body (ij : nat * nat) (c : nat -> nat -> matrix) : reader (nat -> nat -> matrix) := rbind next_line (fun _ =>
      rbind (rm (c (fst ij) (snd ij))) (fun m => ret (fun i' j' => if (i' =? fst ij) && (j' =? snd ij) then m else c i' j'))).
  Definition off_chunk (x : doc) (ij : nat * nat) := [ot x (fst ij) (snd ij); o x (fst ij) (snd ij) 0; o x (fst ij) (snd ij) 1].
  Lemma off_lines x : flat_map (fun i => flat_map (fun j => [ot x i j; o x i j 0; o x i j 1]) (seq 0 i)) (seq 0 12) = flat_map (off_chunk x) lower_pairs.
  Proof. reflexivity. Qed.
  Lemma reads_off x v ij c : holds x v -> In ij lower_pairs -> reads (off_body ij c) (off_chunk x ij) (off_set v ij c).
  Proof.
    intros H I. apply in_lower in I. unfold off_chunk. change ([ot x (fst ij) (snd ij); o x (fst ij) (snd ij) 0; o x (fst ij) (snd ij) 1]) with ([ot x (fst ij) (snd ij)] ++ [o x (fst ij) (snd ij) 0; o x (fst ij) (snd ij) 1] ++ []).
    eapply reads_bind; [apply reads_next|]. eapply reads_bind; [apply reads_matrix; apply (H_o _ _ _ _ _ _ H); lia|]. apply reads_ret.
  Qed.
  Lemma short_off x v ij c : holds x v -> In ij lower_pairs -> short (off_body ij c) (off_chunk x ij).
  Proof.
    intros H I. apply in_lower in I. unfold off_chunk. change ([ot x (fst ij) (snd ij); o x (fst ij) (snd ij) 0; o x (fst ij) (snd ij) 1]) with ([ot x (fst ij) (snd ij)] ++ [o x (fst ij) (snd ij) 0; o x (fst ij) (snd ij) 1] ++ []).
    eapply short_bind; [apply reads_next|apply short_next|]. assert (R : rows (o x (fst ij) (snd ij)) (quad v (fst ij) (snd ij))) by (apply (H_o _ _ _ _ _ _ H); lia).
    eapply short_bind; [apply reads_matrix; exact R|eapply short_matrix; exact R|]. apply short_nil.
  Qed.
  Lemma reads_offdiagonal x v c : holds x v -> reads (fill_in_offdiagonal_quadratic_couplings read_pair c)
    (flat_map (fun i => flat_map (fun j => [ot x i j; o x i j 0; o x i j 1]) (seq 0 i)) (seq 0 12)) (sym (fold_left (fun a i => off_set v i a) lower_pairs c)).
  Proof.
    intros H. rewrite off_lines, <- (app_nil_r (flat_map _ _)). eapply reads_bind; [|apply reads_ret]. apply (reads_for lower_pairs off_body (off_chunk x) (off_set v)). intros; eapply reads_off; eassumption.
  Qed.
  Lemma short_offdiagonal x v c : holds x v -> short (fill_in_offdiagonal_quadratic_couplings read_pair c)
    (flat_map (fun i => flat_map (fun j => [ot x i j; o x i j 0; o x i j 1]) (seq 0 i)) (seq 0 12)).
  Proof.
    intros H. rewrite off_lines, <- (app_nil_r (flat_map _ _)).
    eapply short_bind; [apply (reads_for lower_pairs off_body (off_chunk x) (off_set v)); intros; eapply reads_off; eassumption| |apply short_nil].
    apply (short_for lower_pairs off_body (off_chunk x) (off_set v)); intros; [eapply reads_off|eapply short_off]; eassumption.
  Qed.
  Lemma reads_skip (r : nat -> string) : reads (for_lines mode_range (fun _ _ => rbind next_line (fun _ => ret tt)) tt) (map r (seq 0 12)) tt.
  Proof. intros rest. reflexivity. Qed.
  Lemma short_skip (r : nat -> string) : short (for_lines mode_range (fun _ _ => rbind next_line (fun _ => ret tt)) tt) (map r (seq 0 12)).
  Proof.
    replace (map r (seq 0 12)) with (flat_map (fun i => [r i]) mode_range) by reflexivity.
    apply (short_for mode_range (fun _ _ => rbind next_line (fun _ => ret tt)) (fun i => [r i]) (fun _ _ => tt)); intros; [intros rest; reflexivity|apply short_one].
  Qed.
  Notation freq0 v := (fold_left (fun u i => fun i' => if i' =? i then freq v i else u i') (seq 0 12) (fun _ => 0%Q)).
  Lemma reads_frequencies x v : holds x v -> reads (for_lines mode_range frequency_body (fun _ => 0%Q)) (map (w x) (seq 0 12)) (freq0 v).
  Proof.
    intros H. replace (map (w x) (seq 0 12)) with (flat_map (fun i => [w x i]) mode_range) by reflexivity.
    apply (reads_for mode_range frequency_body (fun i => [w x i]) (fun i u i' => if i' =? i then freq v i else u i')). intros i u I. apply in_seq in I. apply reads_frequency; [exact H|lia].
  Qed.
  Lemma short_frequencies x v : holds x v -> short (for_lines mode_range frequency_body (fun _ => 0%Q)) (map (w x) (seq 0 12)).
  Proof.
    intros H. replace (map (w x) (seq 0 12)) with (flat_map (fun i => [w x i]) mode_range) by reflexivity.
    apply (short_for mode_range frequency_body (fun i => [w x i]) (fun i u i' => if i' =? i then freq v i else u i')); intros i u I.
    - apply in_seq in I. apply reads_frequency; [exact H|lia].
    - apply short_one.
  Qed.

  Definition final (v : vals) (q : nat -> nat -> matrix) : reader auto :=
    rbind (lift (confirm_symmetry_in_surfaces (lin0 v) q)) (fun _ =>
    rbind (lift (confirm_symmetry_in_modes q)) (fun _ =>
    ret (mkAuto 2 12 (filled (energy v) (filled (energy0 v) (fun _ _ => 0%Q))) (freq0 v) (lin0 v) q))).
  Lemma read_doc x v rest : holds x v -> ra (doc_lines x ++ rest) = final v (sym (off0 v)) rest.
  Proof.
    intros H. unfold doc_lines. repeat rewrite <- app_assoc. unfold read_auto.
    erewrite step by apply reads_next. erewrite step by (eapply reads_header; exact H). erewrite step by apply reads_next. erewrite step by apply reads_skip.
    erewrite step by apply reads_next. erewrite step by (eapply reads_frequencies; exact H). erewrite step by apply reads_next.
    erewrite step by (apply reads_matrix; exact (H_e1 _ _ _ _ _ _ H)). erewrite step by (apply reads_matrix; exact (H_e2 _ _ _ _ _ _ H)). erewrite step by apply reads_next.
    erewrite step by (eapply reads_linear; exact H). erewrite step by apply reads_next. erewrite step by (eapply reads_diagonal; exact H). erewrite step by apply reads_next.
    erewrite step by (eapply reads_offdiagonal; exact H). reflexivity.
  Qed.
  Lemma short_doc x v : holds x v -> short ra (doc_lines x).
  Proof.
    intros H. unfold doc_lines, read_auto.
    eapply short_bind; [apply reads_next|apply short_next|]. eapply short_bind; [eapply reads_header; exact H|eapply short_header; exact H|].
    eapply short_bind; [apply reads_next|apply short_next|]. eapply short_bind; [apply reads_skip|apply short_skip|].
    eapply short_bind; [apply reads_next|apply short_next|]. eapply short_bind; [eapply reads_frequencies; exact H|eapply short_frequencies; exact H|].
    eapply short_bind; [apply reads_next|apply short_next|]. eapply short_bind; [apply reads_matrix; exact (H_e1 _ _ _ _ _ _ H)|eapply short_matrix; exact (H_e1 _ _ _ _ _ _ H)|].
    eapply short_bind; [apply reads_matrix; exact (H_e2 _ _ _ _ _ _ H)|eapply short_matrix; exact (H_e2 _ _ _ _ _ _ H)|].
    eapply short_bind; [apply reads_next|apply short_next|]. eapply short_bind; [eapply reads_linear; exact H|eapply short_linear; exact H|].
    eapply short_bind; [apply reads_next|apply short_next|]. eapply short_bind; [eapply reads_diagonal; exact H|eapply short_diagonal; exact H|].
    eapply short_bind; [apply reads_next|apply short_next|]. match goal with |- short _ ?c => rewrite <- (app_nil_r c) end. eapply short_bind; [eapply reads_offdiagonal; exact H|eapply short_offdiagonal; exact H|]. apply short_nil.
  Qed.

  (** the entries *)
  Lemma freq0_at v i : i < 12 -> freq0 v i = freq v i.
  Proof.
    intros I. rewrite (fold_set Nat.eqb Nat.eqb_eq (seq 0 12) (freq v)). replace (existsb (Nat.eqb i) (seq 0 12)) with true; [reflexivity|]. symmetry. apply existsb_exists. exists i. split; [apply in_seq; lia|apply Nat.eqb_refl].
  Qed.
  Lemma fold_hit {K C} (l : list K) (stp : C -> K -> C) (get : C -> Q) (k : K) (q : Q) c : (forall x y : K, {x = y} + {x <> y}) ->
    (forall c, get (stp c k) = q) -> (forall c k', k' <> k -> get (stp c k') = get c) -> In k l \/ get c = q -> get (fold_left stp l c) = q.
  Proof.
    intros D HIT MISS. revert c. induction l as [|y l IH]; intros c [I|I]; cbn [fold_left]; try easy.
    - apply IH. destruct I as [->|I]; [right; apply HIT|left; exact I].
    - apply IH. destruct (D y k) as [->|N]; [right; apply HIT|right; rewrite MISS; assumption].
  Qed.
  Lemma fold_miss {K C} (l : list K) (stp : C -> K -> C) (get : C -> Q) (k : K) c :
    (forall c k', k' <> k -> get (stp c k') = get c) -> ~ In k l -> get (fold_left stp l c) = get c.
  Proof.
    intros MISS. revert c. induction l as [|y l IH]; intros c N; cbn [fold_left]; [reflexivity|]. rewrite IH by (intros J; apply N; right; exact J). apply MISS. intros ->. apply N. left. reflexivity.
  Qed.
  Lemma lin0_at v i a b : i < 12 -> a < 2 -> b < 2 -> lin0 v i a b = lin v i a b.
  Proof.
    intros I A B. apply (fold_hit (seq 0 12) (fun a i => lin_set v i a) (fun c => c i a b) i).
    - exact Nat.eq_dec.
    - intros c. unfold lin_set. rewrite Nat.eqb_refl. apply filled_at; assumption.
    - intros c k N. unfold lin_set. destruct (Nat.eqb_spec i k); [congruence|reflexivity].
    - left. apply in_seq. lia.
  Qed.
  Lemma diag0_same v i a b : i < 12 -> a < 2 -> b < 2 -> diag0 v i i a b = quad v i i a b.
  Proof.
    intros I A B. apply (fold_hit (seq 0 12) (fun a i => diag_set v i a) (fun c => c i i a b) i).
    - exact Nat.eq_dec.
    - intros c. unfold diag_set. rewrite Nat.eqb_refl. apply filled_at; assumption.
    - intros c k N. unfold diag_set. destruct (Nat.eqb_spec i k); [congruence|reflexivity].
    - left. apply in_seq. lia.
  Qed.
  Lemma diag0_other v i j a b : i <> j -> diag0 v i j a b = 0%Q.
  Proof.
    intros N. generalize (seq 0 12). intros ks. enough (G : forall ks c, fold_left (fun a i => diag_set v i a) ks c i j a b = c i j a b) by apply G. clear ks.
    induction ks as [|k ks IH]; intros c; cbn [fold_left]; [reflexivity|]. rewrite IH. unfold diag_set. destruct (Nat.eqb_spec i k), (Nat.eqb_spec j k); cbn [andb]; congruence.
  Qed.
  Lemma pair_dec : forall x y : nat * nat, {x = y} + {x <> y}.
  Proof. decide equality; apply Nat.eq_dec. Qed.
  Lemma off0_lower v i j a b : j < i < 12 -> a < 2 -> b < 2 -> off0 v i j a b = quad v i j a b.
  Proof.
    intros I A B. apply (fold_hit lower_pairs (fun a i => off_set v i a) (fun c => c i j a b) (i, j)).
    - exact pair_dec.
    - intros c. unfold off_set. cbn [fst snd]. rewrite !Nat.eqb_refl. apply filled_at; assumption.
    - intros c [k k'] N. unfold off_set. cbn [fst snd]. destruct (Nat.eqb_spec i k), (Nat.eqb_spec j k'); cbn [andb]; congruence.
    - left. apply in_lower. cbn [fst snd]. lia.
  Qed.
  Lemma off0_other v i j a b : i <= j -> off0 v i j a b = diag0 v i j a b.
  Proof.
    intros I. apply (fold_miss lower_pairs (fun a i => off_set v i a) (fun c => c i j a b) (i, j)).
    - intros c [k k'] N. unfold off_set. cbn [fst snd]. destruct (Nat.eqb_spec i k), (Nat.eqb_spec j k'); cbn [andb]; congruence.
    - rewrite in_lower. cbn [fst snd]. lia.
  Qed.
  (** the entries of the quadratic couplings *)
  Lemma quad_at v i j a b : i < 12 -> j < 12 -> a < 2 -> b < 2 -> (sym (off0 v) i j a b == quad v (max i j) (min i j) a b)%Q.
  Proof.
    intros I J A B. unfold sym. destruct (Nat.ltb_spec i j).
    - rewrite off0_other by lia. rewrite diag0_other by lia. rewrite off0_lower by lia. rewrite Nat.max_r, Nat.min_l by lia. lra.
    - rewrite Nat.max_l, Nat.min_r by lia. destruct (Nat.eq_dec i j) as [->|N].
      + rewrite off0_other by lia. rewrite diag0_same by lia. reflexivity.
      + rewrite off0_lower by lia. reflexivity.
  Qed.
  Lemma all_range_spec n p : all_range n p = true <-> forall i, i < n -> p i = true.
  Proof. unfold all_range. rewrite forallb_forall. split; intros H i I; apply H; [apply in_seq; lia|]. apply in_seq in I. lia. Qed.
  Lemma close_iff x y : close x y = true <-> (Qabs (x - y) <= (1 # 100000000) + (1 # 100000) * Qabs y)%Q.
  Proof. unfold close. apply Qle_bool_iff. Qed.
  Lemma surfaces_spec v : confirm_symmetry_in_surfaces (lin0 v) (sym (off0 v)) = Ok tt <-> surface_symmetric v.
  Proof.
    unfold confirm_symmetry_in_surfaces, surface_symmetric. transitivity (forall a b, a < 2 -> b < 2 -> (forall i, i < 12 -> close (lin v i a b) (lin v i b a) = true) /\
      (forall i j, j <= i < 12 -> close (quad v i j a b) (quad v i j b a) = true)).
    2: { split; intros H a b A B; destruct (H a b A B) as [H1 H2]; split; intros; apply close_iff; auto. }
    match goal with |- passert ?x = _ <-> _ => transitivity (x = true) end. { destruct (all_range 2 _); cbn; split; congruence. }
    rewrite all_range_spec. split.
    - intros H a b A B. specialize (H a A). rewrite all_range_spec in H. specialize (H b B). apply andb_true_iff in H. destruct H as [H1 H2]. rewrite all_range_spec in H1, H2. split.
      + intros i I. specialize (H1 i I). rewrite !lin0_at in H1 by assumption. exact H1.
      + intros i j I. specialize (H2 i ltac:(lia)). cbn beta in H2. rewrite all_range_spec in H2. specialize (H2 j ltac:(lia)). cbn beta in H2.
        rewrite (close_Qeq _ _ _ _ (quad_at v i j a b ltac:(lia) ltac:(lia) A B) (quad_at v i j b a ltac:(lia) ltac:(lia) B A)) in H2. rewrite Nat.max_l, Nat.min_r in H2 by lia. exact H2.
    - intros H a A. rewrite all_range_spec. intros b B. destruct (H a b A B) as [H1 H2]. apply andb_true_iff. rewrite !all_range_spec. split.
      + intros i I. rewrite !lin0_at by assumption. apply H1. exact I.
      + intros i I. rewrite all_range_spec. intros j J. rewrite (close_Qeq _ _ _ _ (quad_at v i j a b I J A B) (quad_at v i j b a I J B A)). apply H2. lia.
  Qed.
  Lemma modes_ok v : confirm_symmetry_in_modes (sym (off0 v)) = Ok tt.
  Proof.
    unfold confirm_symmetry_in_modes. match goal with |- passert ?x = _ => enough (E : x = true) by (rewrite E; reflexivity) end.
    rewrite all_range_spec. intros i I. rewrite all_range_spec. intros j J. rewrite all_range_spec. intros a A. rewrite all_range_spec. intros b B. apply close_eq.
    rewrite !quad_at by assumption. rewrite Nat.max_comm, Nat.min_comm. reflexivity.
  Qed.
End Auto.
