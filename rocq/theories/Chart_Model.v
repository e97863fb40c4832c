(** Model of what the classes of /repo/pibronic/plotting/plotting.py hand to matplotlib: 353-432
    (plot_original_Z_test), 490-652 (plot_original_Z_vs_diagonal_test), 701-866 (plot_sos_Z_vs_rho_n), 928-947
    (plot_rectangle) and 1024-1133 (plot_Z_test), with the constructors 166-174, 267-270, 439-442, 656-659,
    870-873, 986-989 and plotting/virtual.py:40-62 and prepare.py:36-44.

    A picture is the file it is saved to, its title, the label of the vertical axis, and the curves and horizontal
    lines of the axes and of the inset.  The look (ticks, frames, sizes, colours of lines) is left out, and so is
    what can go wrong inside matplotlib when the arguments have fitting lengths.  plt.subplots(1, 1) returns one
    object of class Axes, which cannot be indexed.  Numbers are abstract, as in Plot_Model. *)
From Coq Require Import QArith.
From Verif Require Import Common PyStr_Model FileName_Model Json_Model FileStruct_Model Results_Model Analysis_Model Plot_Model.
Local Open Scope string_scope.
Local Open Scope list_scope.
Local Open Scope nat_scope.

(** the argument of the constructors: a FileStructure or a list of such *)
Inductive fs_arg := OneFS (f : fstruct) | ListFS (l : list fstruct).
(** what a constructed object knows of one FS: the FS with its hashes, list_jackknife, and the lists of parameters *)
Definition prepared := (fstruct * list string * params)%type.

Section Construct.
  Variable H : string -> string.
  Variable fs : fsys string.
  (** the names in a directory, and the hashes kept in a file *)
  Variable listing : string -> list string.
  Variable hashes : hashes_of.

  (** virtual.py:50-51: FS.generate_model_hashes() *)
  Definition with_hashes (f : fstruct) : res fstruct :=
    match generate_model_hashes H fs false f with (f', Ok _) => Ok f' | (_, Raise e) => Raise e end.
  (** generate_file_lists, plotting.py:135-142, 234-240 and 953-959, for one FS *)
  Definition file_list (f : fstruct) : res (fstruct * list string) :=
    match hash_vib f, hash_rho f with
    | Some hv, Some hr =>
        do l <- prune hashes hv hr (retrive_jackknife_file_list (path_rho_results f) (listing (path_rho_results f)));
        Ok (f, l)
    | _, _ => Raise AttributeError
    end.
  (** virtual.py:40-57 plotVirtual.__init__: all the hashes, then all the lists of files, then all the parameters *)
  Definition virtual_init (a : fs_arg) : res (list prepared) :=
    let l := match a with OneFS f => [f] | ListFS l => l end in
    do fl <- map_res with_hashes l;
    do jl <- map_res file_list fl;
    map_res (fun x : fstruct * list string => do p <- generate_parameter_lists (snd x); Ok (fst x, snd x, p)) jl.
  (** plotting.py:267-270 and 986-989: classes for one FS *)
  Definition init_single (a : fs_arg) : res (list prepared) :=
    match a with OneFS _ => virtual_init a | ListFS _ => Raise AssertionError end.
  (** plotting.py:166-174 plot_Z_multiple_FS.__init__ *)
  Definition init_multiple (a : fs_arg) : res (list prepared) :=
    do l <- virtual_init a;
    if existsb (fun x : prepared => negb (Nat.eqb (List.length (snd (fst x))) 0)) l then Ok l else Raise OtherException.
  (** plotting.py:439-442 and 656-659: a FileStructure has no length *)
  Definition init_pair (a : fs_arg) : res (list prepared) :=
    match a with
    | OneFS _ => Raise TypeError
    | ListFS l => if Nat.eqb (List.length l) 2 then init_multiple a else Raise AssertionError
    end.
  (** plotting.py:870-873 *)
  Definition init_rectangle (a : fs_arg) : res (list prepared) :=
    match a with
    | OneFS _ => Raise TypeError
    | ListFS l => if Nat.ltb 1 (List.length l) then init_multiple a else Raise AssertionError
    end.
End Construct.

Section Chart.
  Variable F : Type.
  Variable zero : F.
  Variable of_int : Z -> res F.
  Variable of_repr : string -> F.
  Variable div : F -> F -> F.
  Variable beta : Q -> F.
  (** "{:.1E}".format(X) *)
  Variable sci : Z -> string.
  (** vIO.extract_dimensions_of_diagonal_model(FS), see Load_Model *)
  Variable dims : fstruct -> res (Z * Z).

  Inductive marker := Circle | Cross.
  Inductive mark :=
  | Curve (x y yerr : list F) (m : marker) (label : string)
  | Level (y : F) (label : string).
  Record chart := mkChart { ch_path : string; ch_title : string; ch_ylabel : string; ch_marks : list mark; ch_inset : list mark }.
  (** the pictures saved until the end or the error *)
  Definition charts : Type := (list chart * res unit)%type.
  Definition saved (r : res chart) : charts := match r with Ok c => ([c], Ok tt) | Raise e => ([], Raise e) end.
  Definition charts_then (a b : charts) : charts :=
    match a with (l, Ok _) => ((l ++ fst b)%list, snd b) | (l, Raise e) => (l, Raise e) end.

  (** the result of plt.subplots(1, 1), as it is or inside a list *)
  Inductive axes := Bare | Wrapped.
  (** ax[idx] *)
  Definition ax_item (ax : axes) (idx : nat) : res unit :=
    match ax with Bare => Raise TypeError | Wrapped => match idx with 0 => Ok tt | _ => Raise IndexError end end.
  (** if len(self.lst_T[0]) is 1: ax = [ax, ], 364-365, 1028-1029, 1062-1063 and 1096-1097 *)
  Definition axes_for (p : params) : axes := if Nat.eqb (List.length (lst_T p)) 1 then Wrapped else Bare.

  (** self.arr[:, idx_T, idx_X][key] *)
  Definition column (g : grid F) (j k : nat) (key : string) : res (list F) :=
    if Nat.ltb j (dimT F g) && Nat.ltb k (dimX F g) then Ok (map (fun i => cell F g i j k key) (seq 0 (dimP F g))) else Raise IndexError.
  (** ax[idx_T].errorbar(x, y, xerr=None, yerr=yerr, …) *)
  Definition errorbar (ax : axes) (j : nat) (x y yerr : list F) (m : marker) (label : string) (ms : list mark) : res (list mark) :=
    do _ <- ax_item ax j;
    if Nat.eqb (List.length x) (List.length y) then Ok (ms ++ [Curve x y yerr m label]) else Raise ValueError.

  (** one turn of the loop over X, 371-381, 1037-1046, 1071-1080 and 1105-1114 *)
  Definition x_turn (ax : axes) (p : params) (g : grid F) (key : string) (T : Q) (j : nat) (tau : list F) (ms : list mark) (X : Z) : res (list mark) :=
    do k <- index Z.eqb X (lst_X p);
    do y <- column g j k key;
    do yerr <- column g j k (key ++ " error");
    errorbar ax j tau y yerr Circle (key ++ " (T=" ++ fmt2 T ++ "K) (X=" ++ sci X ++ ")") ms.
  (** the loop over T of plot_Z_test, 1034-1046, 1068-1080 and 1102-1114 *)
  Definition test_turn (tau_of : Q -> res (list F)) (p : params) (g : grid F) (key : string) (ms : list mark) (T : Q) : res (list mark) :=
    do j <- index Qeq_bool T (lst_T p);
    do tau <- tau_of T;
    for_res (x_turn (axes_for p) p g key T j tau) (lst_X p) ms.
  (** plot_Z, plot_E and plot_Cv of plot_Z_test, 1024-1055, 1057-1088 and 1090-1122 *)
  Definition plot_test (tau_of : Q -> res (list F)) (f : fstruct) (p : params) (g : grid F) (key title : string) : res chart :=
    do ms <- for_res (test_turn tau_of p g key) (lst_T p) [];
    Ok (mkChart (join (path_rho_plots f) (key ++ "_D" ++ dec (id_data f) ++ "_R" ++ dec (id_rho f) ++ ".pdf")) title "" ms []).
  Definition tau_of (p : params) (T : Q) : res (list F) := generate_tau_values F of_int div beta p T.
  Definition test_Z (f : fstruct) (p : params) (g : grid F) : charts := saved (plot_test (tau_of p) f p g "Z" "Z MC").
  Definition test_E (f : fstruct) (p : params) (g : grid F) : charts := saved (plot_test (tau_of p) f p g "E" "Energy").
  (** 1103: this class has no method generate_tau_values *)
  Definition test_Cv (f : fstruct) (p : params) (g : grid F) : charts := saved (plot_test (fun _ => Raise AttributeError) f p g "Cv" "Cv").
  (** 1124-1133 plot; [latex] is the outcome of load_latex_module_on_server(), prepare.py:36-44 *)
  Definition plot_Z_test (latex : res unit) (f : fstruct) (p : params) (g : grid F) : charts :=
    charts_then ([], latex) (charts_then (test_Z f p g) (charts_then (test_E f p g) (test_Cv f p g))).

  (** a title over two lines, 404-408, 631-635 and 841-845 *)
  Definition title_of (f : fstruct) : res string :=
    do AN <- dims f;
    Ok ("$\tau$ convergence" ++ String "010"%char ("Data Set " ++ dec (id_data f) ++ String "010"%char (dec (fst AN) ++ " surfaces " ++ dec (snd AN) ++ " normal modes")))%string.
  Definition percent_label (percent : bool) (label : string) : string := if percent then ("\% Difference    " ++ label)%string else label.
  (** true_answer, 383-385, 531-533 and 580-582: looked up even if it is replaced afterwards *)
  Definition true_answer (percent : bool) (orig : list (string * json)) (T : Q) : res F :=
    match dget String.eqb orig (fmt2 T) with
    | None => Raise KeyError
    | Some v => do x <- sub v "Z_coupled"; if percent then Ok zero else as_number F of_int of_repr x
    end.
  Definition orig_text : string := "Analytically derived Z from original model".

  (** one turn of the loop over T of plot_original_Z_test, 368-389 *)
  Definition original_turn (percent : bool) (p : params) (orig : list (string * json)) (g : grid F) (ms : list mark) (T : Q) : res (list mark) :=
    do j <- index Qeq_bool T (lst_T p);
    do tau <- tau_of p T;
    do ms <- for_res (x_turn (axes_for p) p g "Z" T j tau) (lst_X p) ms;
    do y <- true_answer percent orig T;
    do _ <- ax_item (axes_for p) j;
    Ok (ms ++ [Level y orig_text]).
  (** 360-417 plot_Z of plot_original_Z_test *)
  Definition original_Z (percent : bool) (f : fstruct) (p : params) (orig : list (string * json)) (g : grid F) : charts :=
    saved (
      do ms <- for_res (original_turn percent p orig g) (lst_T p) [];
      do _ <- ax_item (axes_for p) 0;
      do title <- title_of f;
      Ok (mkChart (join (path_rho_plots f) ("Z_orig_D" ++ dec (id_data f) ++ "_R" ++ dec (id_rho f) ++ ".pdf")) title (percent_label percent "$\frac{Z_g}{Z_\varrho}$") ms [])).
  (** 419-428 plot *)
  Definition plot_original (latex : res unit) (percent : bool) (f : fstruct) (p : params) (orig : list (string * json)) (g : grid F) : charts :=
    charts_then ([], latex) (original_Z percent f p orig g).

  (** what is known of one FS when it is drawn: parameters, analytical values and the array *)
  Definition drawn := (fstruct * params * list (string * json) * grid F)%type.
  (** the texts of 504-509 *)
  Definition labels_pair : list (Z * string) :=
    [(0%Z, "diagonal of transformed matrix "); (1%Z, "original coupled model "); (2%Z, "iterative model ");
     (3%Z, "wrong re-weighted iterative model"); (4%Z, "correct re-weighted iterative model")].
  (** the texts of 707-713 *)
  Definition labels_sos : list (Z * string) :=
    [(0%Z, "diagonal of transformed matrix "); (1%Z, "alternative sampling distribution from paper"); (2%Z, "2nd alternative sampling distribution");
     (10%Z, "iterative model"); (11%Z, "correct re-weighted iterative model"); (12%Z, "mangled stuff")].
  (** labels[key].format(id_rho, X) *)
  Definition label_of (labels : list (Z * string)) (key rho X : Z) : res string :=
    match dget Z.eqb labels key with
    | None => Raise KeyError
    | Some t => Ok ("Z (id\_rho=" ++ dec rho ++ ") (X=" ++ sci X ++ ") " ++ t)%string
    end.
  Definition marker_of (m : nat) : marker := match m with 0 => Circle | _ => Cross end.
  (** lst[-1] *)
  Definition last_item (l : list Z) : res Z := match rev l with [] => Raise IndexError | x :: _ => Ok x end.
  (** one turn of the loop over T, 513-537 *)
  Definition pair_turn (percent : bool) (m : nat) (x : drawn) (ms : list mark) (T : Q) : res (list mark) :=
    let '(f, p, orig, g) := x in
    do j <- index Qeq_bool T (lst_T p);
    do tau <- tau_of p T;
    do X <- last_item (lst_X p);
    do k <- index Z.eqb X (lst_X p);
    do y <- column g j k "Z";
    do yerr <- column g j k "Z error";
    do label <- label_of labels_pair (id_rho f) (id_rho f) X;
    do ms <- errorbar Wrapped j tau y yerr (marker_of m) label ms;
    do a <- true_answer percent orig T;
    Ok (ms ++ [Level a orig_text]).
  (** the slice [-1:-2:-1] *)
  Definition last_one {A} (l : list A) : list A := match rev l with [] => [] | x :: _ => [x] end.
  (** one curve of the inset, 568-591: idx_T = 0, idx_X = -1, T = 300.00; the text is labels[idx_FS] with lst_X[0] *)
  Definition inset_curve (m : nat) (x : drawn) (ms : list mark) : res (list mark) :=
    let '(f, p, orig, g) := x in
    do tau <- tau_of p (300 # 1);
    do y <- (if Nat.ltb 0 (dimX F g) then column g 0 (dimX F g - 1) "Z" else Raise IndexError);
    do yerr <- column g 0 (dimX F g - 1) "Z error";
    do X <- match lst_X p with [] => Raise IndexError | X :: _ => Ok X end;
    do label <- label_of labels_pair (Z.of_nat m) (id_rho f) X;
    errorbar Wrapped 0 (last_one tau) (last_one y) (last_one yerr) (marker_of m) label ms.
  (** 540-602 *)
  Definition inset (percent : bool) (a b : drawn) : res (list mark) :=
    do ms <- inset_curve 0 a [];
    do ms <- inset_curve 1 b ms;
    do y <- true_answer percent (snd (fst a)) (300 # 1);
    Ok (ms ++ [Level y orig_text]).
  (** 498-642 plot_Z of plot_original_Z_vs_diagonal_test, whose FS_lst has two elements *)
  Definition pair_Z (percent : bool) (a b : drawn) : charts :=
    let fa := fst (fst (fst a)) in
    let fb := fst (fst (fst b)) in
    saved (
      do ms <- for_res (pair_turn percent 0 a) (lst_T (snd (fst (fst a)))) [];
      do ms <- for_res (pair_turn percent 1 b) (lst_T (snd (fst (fst b)))) ms;
      do ins <- (if (10 <=? id_data fa)%Z then inset percent a b else Ok []);
      do title <- title_of fa;
      Ok (mkChart (join (path_vib_plots fa) ("Z_orig_D" ++ dec (id_data fa) ++ "_R" ++ dec (id_rho fa) ++ "_R" ++ dec (id_rho fb) ++ ".pdf")) title (percent_label percent "$Z_H$") ms ins)).
  (** 644-652 plot *)
  Definition plot_pair (latex : res unit) (percent : bool) (a b : drawn) : charts := charts_then ([], latex) (pair_Z percent a b).

  (** one turn of the loop over T of plot_sos_Z_vs_rho_n, 717-738: the attribute sos_params is nowhere set *)
  Definition sos_turn (m : nat) (x : drawn) (ms : list mark) (T : Q) : res (list mark) :=
    let '(f, p, orig, g) := x in
    do j <- index Qeq_bool T (lst_T p);
    do tau <- tau_of p T;
    do k <- index Z.eqb 10000%Z (lst_X p);
    do y <- column g j k "Z";
    do yerr <- column g j k "Z error";
    do label <- label_of labels_sos (id_rho f) (id_rho f) 10000;
    do ms <- errorbar Wrapped j tau y yerr (marker_of m) label ms;
    Raise AttributeError.
  (** 701-854 plot_Z of plot_sos_Z_vs_rho_n; the inset, 745-816, asks the object for a method it does not have *)
  Definition sos_Z (percent : bool) (a b : drawn) : charts :=
    let fa := fst (fst (fst a)) in
    let fb := fst (fst (fst b)) in
    saved (
      do ms <- for_res (sos_turn 0 a) (lst_T (snd (fst (fst a)))) [];
      do ms <- for_res (sos_turn 1 b) (lst_T (snd (fst (fst b)))) ms;
      do ins <- (if (100 <=? id_data fa)%Z then do k <- index Z.eqb 10000%Z (lst_X (snd (fst (fst a)))); Raise AttributeError else Ok []);
      do title <- title_of fa;
      Ok (mkChart (join (path_vib_plots fa) ("Z_sos_D" ++ dec (id_data fa) ++ "_R" ++ dec (id_rho fa) ++ "_R" ++ dec (id_rho fb) ++ ".pdf")) title (percent_label percent "$Z_H$") ms ins)).
  (** 857-866 plot *)
  Definition plot_sos (latex : res unit) (percent : bool) (a b : drawn) : charts := charts_then ([], latex) (sos_Z percent a b).
  (** 935-947 plot_rectangle: plot_Z does nothing yet *)
  Definition plot_rectangle (latex : res unit) : charts := charts_then ([], latex) ([], Ok tt).
End Chart.
