(** What the pictures of the parameters of a model should show. *)
From Verif Require Import Common PyStr_Model FileName_Model Arr_Model ModelIO_Model Load_Spec FileStruct_Model Grid_Model.
Local Open Scope string_scope.
Local Open Scope nat_scope.

(** the text for the sign of a number (np.sign; [None] is NaN) *)
Inductive sign_is : option comparison -> string -> Prop :=
| sign_plus : sign_is (Some Gt) "+"
| sign_minus : sign_is (Some Lt) "-"
| sign_zero : sign_is (Some Eq) "0"
| sign_nan : sign_is None "y".

(** the three files of one data set: the model before the transformation, the coupled model, and
    the sampling model, all of A surfaces and N modes *)
Record grid_files {V} (vint : V -> res Z) (f : fs V) (FS : fstruct) (oo oc orho : list (string * jval V)) (A N : nat) : Prop := {
  gf_orig : f (path_orig_model FS) = Some (CJson oo) /\ model_file vint Coupled (Z.of_nat A) (Z.of_nat N) oo;
  gf_coup : f (path_vib_model FS) = Some (CJson oc) /\ model_file vint Coupled (Z.of_nat A) (Z.of_nat N) oc;
  gf_rho : f (path_rho_model FS) = Some (CJson orho) /\ model_file vint Diagonal (Z.of_nat A) (Z.of_nat N) orho }.

(** a picture of the A x A numbers of parameter [m] at the modes [pre]: the colour at column x
    and row y is that of element (y, x); the text there is the sign of element (x, y) *)
Record picture {V} (zero : V) (sign : V -> option comparison) (o : list (string * jval V)) (m : vmk) (pre : list nat) (A : nat)
    (path title : string) (g : figure V) : Prop := {
  pic_path : fig_path g = path;
  pic_title : fig_title g = title;
  pic_shape : shape (fig_image g) = [A; A];
  pic_image : forall x y, x < A -> y < A -> exists v, aget (fig_image g) [y; x] = Some v /\ file_number zero o m (pre ++ [y; x]) v;
  pic_marks : forall x y t, In (x, y, t) (fig_marks g) <->
                x < A /\ y < A /\ exists v, file_number zero o m (pre ++ [x; y]) v /\ sign_is (sign v) t;
  pic_once : NoDup (map fst (fig_marks g)) }.
(** the title with its second line *)
Definition titled (title : string) (FS : fstruct) (A N : nat) : string :=
  title ++ String (ascii_of_nat 10) ("Data Set " ++ dec (id_data FS) ++ " - " ++ dec (Z.of_nat A) ++ " surfaces " ++ dec (Z.of_nat N) ++ " normal modes").
(** number j counted from one *)
Definition ordinal (j : nat) : string := dec (Z.of_nat (S j)).
