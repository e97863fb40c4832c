(** Model of create_coupling_from_op_file, vibronic_model_io.py:438-444: the
    import of an operator file followed by saving.  Numbers are exact rationals. *)
From Coq Require Import QArith.
From Verif Require Import Common Arr_Model ModelIO_Model ModelOp_Model.
Local Open Scope nat_scope.
Local Open Scope list_scope.

(** the numpy arrays that read_model_op_file returns (model_op.py:317-343 and 408-421), as entries of a model dictionary *)
Definition op_entry (N A : nat) (kv : vmk * opval) : key * pval Q :=
  (KV (fst kv),
   match snd kv with
   | OInt n => PInt (Z.of_nat n)
   | OVec w => PArr (mkArr [length w] w)
   | OMat e => PArr (abuild [A; A] (fun idx => e (nth 0 idx 0) (nth 1 idx 0)))
   | OCoup k t => PArr (abuild (repeat N k ++ [A; A]) (fun idx => t (firstn k idx) (nth k idx 0) (nth (k + 1) idx 0)))
   end).

(** vibronic_model_io.py:438-444; [file] is the text of the operator file, None if there is none; [vib] is FS.path_vib_model *)
Definition create_coupling_from_op_file (py_float : string -> res Q) (vint : Q -> res Z) (f : fs Q) (file : option string) (vib : string) : fs Q * res string :=
  match read_listing py_float file with
  | Raise e => (f, Raise e)
  | Ok l =>
      match complete l with
      | Raise e => (f, Raise e)
      | Ok d =>
          match save is_zero vint Coupled f vib (map (op_entry (length (l_w l)) (length (l_E l))) d) with
          | (f', Ok _) => (f', Ok vib)
          | (f', Raise e) => (f', Raise e)
          end
      end
  end.
