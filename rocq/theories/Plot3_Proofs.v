From Coq Require Import QArith Lia.
From Verif Require Import Common Common_Proofs PyStr_Model FileName_Model FileStruct_Model Json_Model Analysis_Model Plot_Spec Plot_Model Plot_Proofs.
Local Open Scope string_scope.
Local Open Scope list_scope.
Local Open Scope nat_scope.

Section P.
  Variable F : Type.
  Variable of_int : Z -> res F.
  Variable of_repr : string -> F.
  Variable mul sub_ div : F -> F -> F.
  Variable hundred : F.
  Notation grid := (grid F).
  Notation cell := (cell F).
  Notation value_at := (value_at F of_int of_repr).
  Definition same_dims (g g' : grid) : Prop := dimP F g' = dimP F g /\ dimT F g' = dimT F g /\ dimX F g' = dimX F g.

  Lemma scale_ok p rho zr g : increasing_Q (lst_T p) -> (forall T, In T (lst_T p) -> value_at rho T "Z_sampling" = Ok (zr T)) ->
    exists g', scale_by_rho F of_int of_repr mul p rho g = Ok g' /\ same_dims g g' /\
    forall i j k n, cell g' i j k n = match nth_error (lst_T p) j with
                                      | Some T => if String.eqb n "Z" || String.eqb n "Z error" then mul (cell g i j k n) (zr T) else cell g i j k n
                                      | None => cell g i j k n end.
  Proof.
    intros IT V. unfold scale_by_rho.
    match goal with |- context [for_res ?b _ _] => set (body := b) end.
    destruct (fold_slices F body (fun i j k => j) (fun T i j k n x => if String.eqb n "Z" || String.eqb n "Z error" then mul x (zr T) else x) (lst_T p)) with (g := g)
      as (g' & E & D1 & D2 & D3 & C).
    - intros h m T N. unfold body. rewrite (V T (nth_error_In _ _ N)), (index_Q _ _ T T IT N) by reflexivity. cbn [bind]. eexists. split; [reflexivity|]. repeat split; auto.
      intros i j k n. cbn [update_T Plot_Model.cell]. destruct (Nat.eqb_spec j m); cbn [andb]; [|reflexivity].
      destruct (String.eqb_spec n "Z") as [->|A]; [reflexivity|]. destruct (String.eqb_spec n "Z error") as [->|B]; reflexivity.
    - exists g'. split; [exact E|]. split; [repeat split; auto|]. exact C.
  Qed.
  (** the five operations of the second part *)
  Definition percent (z : F) (n : string) (x : F) : F :=
    if String.eqb n "Z" then div (mul (sub_ x z) hundred) z else if String.eqb n "Z error" then div (mul x hundred) z else x.
  Lemma single_ok p rho orig zr zc g : increasing_Q (lst_T p) -> (forall T, In T (lst_T p) -> value_at rho T "Z_sampling" = Ok (zr T)) ->
    (forall T, In T (lst_T p) -> value_at orig T "Z_coupled" = Ok (zc T)) ->
    exists g', prepare_single F of_int of_repr mul sub_ div hundred p rho orig g = Ok g' /\ same_dims g g' /\
    forall i j k n, cell g' i j k n = match nth_error (lst_T p) j with
                                      | Some T => percent (zc T) n (if String.eqb n "Z" || String.eqb n "Z error" then mul (cell g i j k n) (zr T) else cell g i j k n)
                                      | None => cell g i j k n end.
  Proof.
    intros IT V W. unfold prepare_single. destruct (scale_ok p rho zr g IT V) as (g1 & -> & (D1 & D2 & D3) & C1). cbn [bind].
    match goal with |- context [for_res ?b _ _] => set (body := b) end.
    destruct (fold_slices F body (fun i j k => j) (fun T i j k n x => percent (zc T) n x) (lst_T p)) with (g := g1) as (g' & E & D4 & D5 & D6 & C).
    - intros h m T N. unfold body. rewrite (W T (nth_error_In _ _ N)), (index_Q _ _ T T IT N) by reflexivity. cbn [bind]. eexists. split; [reflexivity|]. repeat split; auto.
      intros i j k n. cbn [update_T Plot_Model.cell]. unfold percent. destruct (Nat.eqb_spec j m); cbn [andb]; [|reflexivity].
      destruct (String.eqb_spec n "Z") as [->|A]; [reflexivity|]. destruct (String.eqb_spec n "Z error") as [->|B]; reflexivity.
    - exists g'. split; [exact E|]. split; [repeat split; congruence|]. intros i j k n. rewrite C, C1. destruct (nth_error (lst_T p) j); reflexivity.
  Qed.
  Lemma by_X_ok p orig zc g : increasing_Q (lst_T p) -> increasing_Z (lst_X p) -> (forall T, In T (lst_T p) -> value_at orig T "Z_coupled" = Ok (zc T)) ->
    exists g', percent_by_X F of_int of_repr mul sub_ div hundred p orig g = Ok g' /\ same_dims g g' /\
    forall i j k n, cell g' i j k n = match nth_error (lst_T p) j, nth_error (lst_X p) k with
                                      | Some T, Some _ => percent (zc T) n (cell g i j k n)
                                      | _, _ => cell g i j k n end.
  Proof.
    intros IT IX W. unfold percent_by_X. match goal with |- context [for_res ?b _ _] => set (body := b) end.
    destruct (fold_slices F body (fun i j k => k) (fun X i j k n x => match nth_error (lst_T p) j with Some T => percent (zc T) n x | None => x end) (lst_X p)) with (g := g) as (g' & E & D4 & D5 & D6 & C).
    - intros h m X N. unfold body. rewrite (index_Z _ _ X IX N). cbn [bind]. match goal with |- context [for_res ?b _ _] => set (inner := b) end.
      destruct (fold_slices F inner (fun i j k => j) (fun T i j k n x => if Nat.eqb k m then percent (zc T) n x else x) (lst_T p)) with (g := h) as (g' & E & D4 & D5 & D6 & C).
      + intros h' m' T N'. unfold inner. rewrite (W T (nth_error_In _ _ N')), (index_Q _ _ T T IT N') by reflexivity. cbn [bind]. eexists. split; [reflexivity|]. repeat split; auto.
        intros i j k n. cbn [update_TX Plot_Model.cell]. unfold percent. destruct (Nat.eqb_spec j m'), (Nat.eqb_spec k m); cbn [andb]; try reflexivity.
        destruct (String.eqb_spec n "Z") as [->|A]; [reflexivity|]. destruct (String.eqb_spec n "Z error") as [->|B]; reflexivity.
      + exists g'. split; [exact E|]. repeat split; auto. intros i j k n. rewrite C. destruct (Nat.eqb_spec k m), (nth_error (lst_T p) j); reflexivity.
    - exists g'. split; [exact E|]. split; [repeat split; auto|]. intros i j k n. rewrite C. destruct (nth_error (lst_T p) j), (nth_error (lst_X p) k); reflexivity.
  Qed.
End P.
