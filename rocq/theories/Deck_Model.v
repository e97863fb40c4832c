(** Model of the input files of the electronic structure calculations:
    /repo/pibronic/vibronic/electronic_structure.py:401-420, 679-705, 820-843, 883-913 and 1018-1062, with the
    names of the files in lines 53-82.

    A field of a template is "name" or "name:spec"; attributes, indices and conversions inside a field are
    not modelled (they can only come from braces in the geometry). *)
From Verif Require Import Common PyStr_Model ModelOp_Model FileStruct_Model Exec_Model Zmat_Model.
Local Open Scope string_scope.
Local Open Scope nat_scope.

(** format(value, spec) for the specs "s", "d" and ""; of other specs only those that are refused *)
Definition render_value (v : pval) (spec : string) : res string :=
  if String.eqb spec "s" then
    match v with PText s => Ok s | PInt _ => Raise ValueError | PNone => Raise TypeError end
  else if String.eqb spec "d" then
    match v with PInt z => Ok (dec z) | PText _ => Raise ValueError | PNone => Raise TypeError end
  else if String.eqb spec "" then
    match v with PText s => Ok s | PInt z => Ok (dec z) | PNone => Ok "None" end
  else match v with PNone => Raise TypeError | _ => Raise ValueError end.
(** a field; format_map refuses positional fields *)
Definition lookup_field (d : pdict) (field : string) : res string :=
  match split ":" field with
  | [] => Raise ValueError
  | name :: specs =>
      if String.eqb name "" || forallb (fun c => match digit c with Some _ => true | None => false end) (list_ascii_of_string name) then Raise ValueError
      else match dget String.eqb d name with
           | None => Raise KeyError
           | Some v => render_value v (String.concat ":" specs)
           end
  end.
(** template.format_map(parameter_dictionary) *)
Definition format_map (t : string) (d : pdict) : res string := py_format_go (lookup_field d) None t.

(** "\n\t" *)
Definition nt : string := newline_s ++ String "009"%char "".
(** hartree_fock_calculation, lines 412-418; memory_size is 10 *)
Definition hf_template (z : zmat) : string :=
  zmat_get false z ++ "*ACES2( BASIS={basis:s}," ++ nt ++ "CALC=SCF," ++ nt ++ "MEMORY_SIZE=" ++ dec 10 ++ "GB," ++ nt ++ ")" ++ newline_s.
(** geometry_optimization, lines 691-701; memory_size is 20 *)
Definition opt_template (z : zmat) : string :=
  zmat_get true z ++ "*ACES2( BASIS={basis:s}," ++ nt ++ "CALC={theory:s}," ++ nt ++ "MEMORY_SIZE=" ++ dec 20 ++ "GB,"
    ++ (match z with Cartesian _ => nt ++ "GEOM_OPT=RIC," | Internal _ _ => "" end) ++ nt ++ ")" ++ newline_s.
(** vibrational_frequency, lines 832-839; memory_size is 20 *)
Definition vib_template (z : zmat) : string :=
  zmat_get false z ++ "*ACES2( BASIS={basis:s}," ++ nt ++ "CALC={theory:s}," ++ nt ++ "MEMORY_SIZE=" ++ dec 20 ++ "GB,"
    ++ nt ++ "VIB=FINDIF," ++ nt ++ ")" ++ newline_s.
(** ip_calculation, lines 895-909; memory_size is 10 *)
Definition ip_template (z : zmat) : string :=
  zmat_get false z ++ "*ACES2( BASIS={basis:s}," ++ nt ++ "CALC={theory:s}," ++ nt ++ "MEMORY_SIZE=" ++ dec 10 ++ "GB,"
    ++ nt ++ "IP_CALC=IP_EOMCC," ++ nt ++ ")" ++ newline_s
    ++ newline_s ++ "*mrcc_gen" ++ nt ++ "nip={nip:d}" ++ newline_s ++ "*end" ++ newline_s.
(** _create_template, lines 1018-1043: a text is built from the geometry and memory_size and is not returned *)
Definition create_template (z : zmat) (memory_size : Z) : option string := None.

(** "…{:s}…".format(name) and "…{:d}…".format(z); for a name with braces the second is not modelled *)
Definition format_name (t name : string) : res string :=
  py_format_go (fun f => if String.eqb f ":s" then Ok name else Raise IndexError) None t.
Definition format_number (t : string) (z : Z) : res string :=
  py_format_go (fun f => if String.eqb f ":d" then Ok (dec z) else Raise IndexError) None t.
(** default_file_in, lines 57-61, and default_file_out, lines 72-75 *)
Definition hf_in : string := "{:s}_hartree_fock_nip.in".
Definition opt_in : string := "{:s}_opt.in".
Definition vib_in : string := "{:s}_vib.in".
Definition ip_in : string := "{:s}_eomcc_ip_{{:d}}.in".
Definition prep_in : string := "{:s}_prepvib.in".
Definition hf_out : string := "{:s}_hartree_fock_nip.out0".
Definition opt_out : string := "{:s}_opt.out0".
Definition vib_out : string := "{:s}_vib.out0".
Definition ip_out : string := "{:s}_eomcc_ip_{{:d}}.out0".
(** parameter_dictionary["nip"] as an argument of format, lines 892 and 940 *)
Definition nip_name (t name : string) (d : pdict) : res string :=
  do t' <- format_name t name;
  match dget String.eqb d "nip" with
  | None => Raise KeyError
  | Some (PInt z) => format_number t' z
  | Some (PText _) => do _ <- format_number t' 0; Raise ValueError
  | Some PNone => do _ <- format_number t' 0; Raise TypeError
  end.
(** file_name.replace(".in", ""), e.g. line 720 *)
Definition job_name (file_name : string) : string := remove ".in" file_name.

(** the files in path_root *)
Definition files := string -> option string.
Definition write (fs : files) (n text : string) : files := fun n' => if String.eqb n' n then Some text else fs n'.
(** the beginnings of the calculations: the input file is written *)
Definition write_deck (fs : files) (file_name : res string) (t : string) (d : pdict) : files * res string :=
  match file_name with
  | Raise e => (fs, Raise e)
  | Ok n => match format_map t d with Raise e => (fs, Raise e) | Ok text => (write fs n text, Ok n) end
  end.
(** hartree_fock_calculation, lines 401-420, with hf_type "NIP", the only one that is used (line 1592) *)
Definition hf_deck (fs : files) (name : string) (z : zmat) (d : pdict) := write_deck fs (format_name hf_in name) (hf_template z) d.
(** geometry_optimization, lines 679-708 *)
Definition opt_deck (fs : files) (name : string) (z : zmat) (d : pdict) := write_deck fs (format_name opt_in name) (opt_template z) d.
(** vibrational_frequency, lines 820-845 *)
Definition vib_deck (fs : files) (name : string) (z : zmat) (d : pdict) := write_deck fs (format_name vib_in name) (vib_template z) d.
(** ip_calculation, lines 883-915 *)
Definition ip_deck (fs : files) (name : string) (z : zmat) (d : pdict) := write_deck fs (nip_name ip_in name d) (ip_template z) d.
(** prepVibron_calculation, lines 1046-1062: None has no attribute format_map *)
Definition prep_deck (fs : files) (name : string) (z : zmat) (d : pdict) : files * res string :=
  match format_name prep_in name with
  | Raise e => (fs, Raise e)
  | Ok n =>
      match create_template z 10 with
      | None => (fs, Raise AttributeError)
      | Some t => write_deck fs (Ok n) t d
      end
  end.
