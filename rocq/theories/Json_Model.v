(** Model of the exchange of execution parameters as text:
    /repo/pibronic/pimc/pimc.py:464-465 and 512-593 (BoxData.json_serialize,
    encode_self, load_json_string), /repo/pibronic/server/server.py:11-23,
    /repo/pibronic/server/job_boss.py:205-209, on top of a character-level model
    of json.dumps and json.loads (Python 3.6).

    Simplifications: characters are code points below 256 (an escape \uXXXX of
    a larger one is not modelled: OtherException).  A float is represented by
    the text repr() gives it, and float() of that text is assumed to give the
    same float back.  JSONDecodeError is a ValueError. *)
From Verif Require Import Common PyStr_Model.
Local Open Scope string_scope.
Local Open Scope nat_scope.

(** Python values that json.dumps accepts.  Dictionaries have text keys, or
    enum members *)
Inductive pkey := PStr (s : string) | PEnum (s : string).
Inductive json :=
| JNull
| JBool (b : bool)
| JInt (z : Z)
| JFloat (repr : string)
| JStr (s : string)
| JArr (l : list json)
| JObj (l : list (string * json)).

(** ** json.dumps *)
Definition hex_digit (n : nat) : ascii := ascii_of_nat (if n <? 10 then n + 48 else n + 87).
(** json.encoder.py_encode_basestring_ascii *)
Definition escape_char (c : ascii) : string :=
  let n := nat_of_ascii c in
  if n =? 34 then "\" ++ String c ""
  else if n =? 92 then "\\"
  else if n =? 10 then "\n"
  else if n =? 13 then "\r"
  else if n =? 9 then "\t"
  else if n =? 12 then "\f"
  else if n =? 8 then "\b"
  else if (32 <=? n) && (n <=? 126) then String c ""
  else "\u00" ++ String (hex_digit (n / 16)) (String (hex_digit (n mod 16)) "").
Fixpoint escape (s : string) : string :=
  match s with
  | EmptyString => ""
  | String c s' => escape_char c ++ escape s'
  end.
Definition quote : string := String (ascii_of_nat 34) "".
Definition write_str (s : string) : string := quote ++ escape s ++ quote.

(** [sep] is the item separator, [ksep] the key separator *)
Section Dumps.
  Variables sep ksep : string.
  Fixpoint write (v : json) : string :=
    match v with
    | JNull => "null"
    | JBool true => "true"
    | JBool false => "false"
    | JInt z => dec z
    | JFloat t => t
    | JStr s => write_str s
    | JArr l => "[" ++ String.concat sep (map write l) ++ "]"
    | JObj l => "{" ++ String.concat sep (map (fun kv => write_str (fst kv) ++ ksep ++ write (snd kv)) l) ++ "}"
    end.
End Dumps.

(** pimc.py:464-465 *)
Definition comma_replacement : string := ";".
Definition separators : string * string := (comma_replacement, ":").

(** json.dumps of a dictionary with keys of any kind: a key that is not a
    string, number, bool or None is a TypeError *)
Fixpoint str_keys (l : list (pkey * json)) : res (list (string * json)) :=
  match l with
  | [] => Ok []
  | (PStr k, v) :: l' => do r <- str_keys l'; Ok ((k, v) :: r)
  | (PEnum _, _) :: _ => Raise TypeError
  end.
(** pimc.py:512-515; job_boss.py:205-209 *)
Definition json_serialize (params : list (pkey * json)) : res string :=
  do l <- str_keys params; Ok (write (fst separators) (snd separators) (JObj l)).

(** ** json.loads *)
Definition ws (c : ascii) : bool := let n := nat_of_ascii c in (n =? 32) || (n =? 9) || (n =? 10) || (n =? 13).
Fixpoint skip_ws (s : string) : string :=
  match s with
  | String c s' => if ws c then skip_ws s' else s
  | EmptyString => s
  end.
Definition isdig (c : ascii) : bool := let n := nat_of_ascii c in (48 <=? n) && (n <=? 57).
Fixpoint take_digits (s : string) : string * string :=
  match s with
  | String c s' => if isdig c then let (d, r) := take_digits s' in (String c d, r) else ("", s)
  | EmptyString => ("", "")
  end.
Definition hex_value (c : ascii) : option nat :=
  let n := nat_of_ascii c in
  if (48 <=? n) && (n <=? 57) then Some (n - 48)
  else if (97 <=? n) && (n <=? 102) then Some (n - 87)
  else if (65 <=? n) && (n <=? 70) then Some (n - 55)
  else None.

(** json.decoder.scanstring, after the opening quote (strict) *)
Fixpoint scan_string (s : string) : res (string * string) :=
  match s with
  | EmptyString => Raise ValueError
  | String c s1 =>
      let n := nat_of_ascii c in
      if n =? 34 then Ok ("", s1)
      else if n <? 32 then Raise ValueError
      else if n =? 92 then
        match s1 with
        | EmptyString => Raise ValueError
        | String e s2 =>
            let put x := do r <- scan_string s2; Ok (String x (fst r), snd r) in
            let m := nat_of_ascii e in
            if m =? 34 then put e
            else if m =? 92 then put e
            else if m =? 47 then put e
            else if m =? 98 then put (ascii_of_nat 8)
            else if m =? 102 then put (ascii_of_nat 12)
            else if m =? 110 then put (ascii_of_nat 10)
            else if m =? 114 then put (ascii_of_nat 13)
            else if m =? 116 then put (ascii_of_nat 9)
            else if m =? 117 then
              match s2 with
              | String a (String b (String d (String f s3))) =>
                  match hex_value a, hex_value b, hex_value d, hex_value f with
                  | Some xa, Some xb, Some xd, Some xf =>
                      if (xa =? 0) && (xb =? 0)
                      then do r <- scan_string s3; Ok (String (ascii_of_nat (xd * 16 + xf)) (fst r), snd r)
                      else Raise OtherException
                  | _, _, _, _ => Raise ValueError
                  end
              | _ => Raise ValueError
              end
            else Raise ValueError
        end
      else do r <- scan_string s1; Ok (String c (fst r), snd r)
  end.

(** json.scanner.NUMBER_RE: an optional minus; 0 or digits not starting with 0;
    optionally a point and digits; optionally e or E, an optional sign, digits.
    An int if the last two groups are empty *)
Definition eat (c : ascii) (s : string) : option string :=
  match s with
  | String d r => if Ascii.eqb d c then Some r else None
  | EmptyString => None
  end.
Definition scan_frac (s : string) : string * string :=
  match eat "." s with
  | Some s' => let (d, r) := take_digits s' in if String.eqb d "" then ("", s) else (String "." d, r)
  | None => ("", s)
  end.
Definition scan_exp (s : string) : string * string :=
  match s with
  | String c s' =>
      if Ascii.eqb c "e" || Ascii.eqb c "E" then
        let (sg, s'') := match s' with
                         | String g r => if Ascii.eqb g "+" || Ascii.eqb g "-" then (String g "", r) else ("", s')
                         | EmptyString => ("", s')
                         end in
        let (d, r) := take_digits s'' in
        if String.eqb d "" then ("", s) else (String c (sg ++ d), r)
      else ("", s)
  | EmptyString => ("", s)
  end.
Definition scan_int (s : string) : option (string * string) :=
  match s with
  | String c s' => if Ascii.eqb c "0" then Some ("0", s')
                   else if isdig c then let (d, r) := take_digits s' in Some (String c d, r)
                   else None
  | EmptyString => None
  end.
Definition scan_number (s : string) : option (json * string) :=
  let (sg, s0) := match eat "-" s with Some r => ("-", r) | None => ("", s) end in
  match scan_int s0 with
  | None => None
  | Some (ip, s1) =>
      let (fp, s2) := scan_frac s1 in
      let (ep, s3) := scan_exp s2 in
      if String.eqb fp "" && String.eqb ep ""
      then match py_int_str (sg ++ ip) with Ok z => Some (JInt z, s3) | Raise _ => None end
      else Some (JFloat (sg ++ ip ++ fp ++ ep), s3)
  end.
(** the text after the literal [p] *)
Fixpoint after (p s : string) : option string :=
  match p, s with
  | EmptyString, _ => Some s
  | String a p', String b s' => if Ascii.eqb a b then after p' s' else None
  | String _ _, EmptyString => None
  end.
Definition literals : list (string * json) :=
  [("null", JNull); ("true", JBool true); ("false", JBool false); ("NaN", JFloat "NaN"); ("Infinity", JFloat "Infinity"); ("-Infinity", JFloat "-Infinity")].
Fixpoint scan_literal (l : list (string * json)) (s : string) : option (json * string) :=
  match l with
  | [] => None
  | (p, v) :: l' => match after p s with Some r => Some (v, r) | None => scan_literal l' s end
  end.

Definition oset (l : list (string * json)) (k : string) (v : json) := dset String.eqb l k v.
(** json.scanner.scan_once, JSONArray and JSONObject; [fuel] bounds the
    recursion *)
Fixpoint parse (fuel : nat) (s : string) : res (json * string) :=
  match fuel with
  | O => Raise OtherException
  | S fuel' =>
      match s with
      | EmptyString => Raise ValueError
      | String c s1 =>
          if nat_of_ascii c =? 34 then do r <- scan_string s1; Ok (JStr (fst r), snd r)
          else if Ascii.eqb c "[" then
            match eat "]" (skip_ws s1) with
            | Some s2 => Ok (JArr [], s2)
            | None => do r <- parse_items fuel' (skip_ws s1); Ok (JArr (fst r), snd r)
            end
          else if Ascii.eqb c "{" then
            match eat "}" (skip_ws s1) with
            | Some s2 => Ok (JObj [], s2)
            | None => do r <- parse_members fuel' (skip_ws s1) []; Ok (JObj (fst r), snd r)
            end
          else match scan_literal literals s with
               | Some vr => Ok vr
               | None => match scan_number s with Some vr => Ok vr | None => Raise ValueError end
               end
      end
  end
with parse_items (fuel : nat) (s : string) : res (list json * string) :=
  match fuel with
  | O => Raise OtherException
  | S fuel' =>
      do vr <- parse fuel' s;
      match eat "]" (skip_ws (snd vr)), eat "," (skip_ws (snd vr)) with
      | Some r, _ => Ok ([fst vr], r)
      | None, Some r => do lr <- parse_items fuel' (skip_ws r); Ok (fst vr :: fst lr, snd lr)
      | None, None => Raise ValueError
      end
  end
with parse_members (fuel : nat) (s : string) (acc : list (string * json)) : res (list (string * json) * string) :=
  match fuel with
  | O => Raise OtherException
  | S fuel' =>
      match s with
      | String c s1 =>
          if nat_of_ascii c =? 34 then
            do kr <- scan_string s1;
            match eat ":" (skip_ws (snd kr)) with
            | Some s2 =>
                do vr <- parse fuel' (skip_ws s2);
                let acc' := oset acc (fst kr) (fst vr) in
                match eat "}" (skip_ws (snd vr)), eat "," (skip_ws (snd vr)) with
                | Some r, _ => Ok (acc', r)
                | None, Some r => parse_members fuel' (skip_ws r) acc'
                | None, None => Raise ValueError
                end
            | None => Raise ValueError
            end
          else Raise ValueError
      | EmptyString => Raise ValueError
      end
  end.
(** json.loads(s) *)
Definition loads (s : string) : res json :=
  do vr <- parse (S (String.length s)) (skip_ws s);
  match skip_ws (snd vr) with EmptyString => Ok (fst vr) | _ => Raise ValueError end.

(** ** BoxData *)
(** pimc.py:546-547 *)
Definition decode (s : string) : res json := loads (replace_char ";" "," s).

(** server.py:12-23 *)
Inductive sep_key := X_ | nBlk_ | A_ | P_ | N_ | T_ | BlkS_ | dB_ | D_ | R_ | beta_ | tau_.
Definition sep_value (k : sep_key) : string :=
  match k with
  | X_ => "number_of_samples" | nBlk_ => "number_of_blocks" | A_ => "number_of_states" | P_ => "number_of_beads"
  | N_ => "number_of_modes" | T_ => "temperature" | BlkS_ => "block_size" | dB_ => "delta_beta"
  | D_ => "id_data" | R_ => "id_rho" | beta_ => "beta" | tau_ => "tau"
  end.

(** the attributes pimc.py:429-470 that are set from the text *)
Record boxdata := mkBox {
  samples : json; blocks : json; states : json; beads : json; modes : json; temperature : json;
  block_size : json; delta_beta : json; id_data : json; id_rho : json; beta : json; tau : json;
  path_vib_model : string; path_rho_model : string; hash_vib : string; hash_rho : string }.

(** pimc.py:517-540, without arguments: the keys are enum members *)
Definition encode_self (b : boxdata) : res string :=
  json_serialize
    [(PEnum (sep_value X_), samples b); (PEnum (sep_value nBlk_), blocks b); (PEnum (sep_value A_), states b);
     (PEnum (sep_value P_), beads b); (PEnum (sep_value N_), modes b); (PEnum (sep_value T_), temperature b);
     (PEnum (sep_value BlkS_), block_size b); (PEnum (sep_value dB_), delta_beta b); (PEnum (sep_value D_), id_data b);
     (PEnum (sep_value R_), id_rho b); (PEnum (sep_value beta_), beta b); (PEnum (sep_value tau_), tau b)].
(** pimc.py:517-540 with a dictionary *)
Definition encode_params (params : list (pkey * json)) : res string := json_serialize params.

(** params[key] *)
Definition sub (params : json) (k : string) : res json :=
  match params with
  | JObj l => match dget String.eqb l k with Some v => Ok v | None => Raise KeyError end
  | _ => Raise TypeError
  end.
Definition mem (params : json) (k : string) : res bool :=
  match params with
  | JObj l => Ok (dmem String.eqb l k)
  | _ => Raise AttributeError
  end.

Section Load.
  (** 1.0 / (boltzman * x), x / y of Python *)
  Variable inv_kT : json -> res json.
  Variable divide : json -> json -> res json.
  (** FileStructure(path_root, id_data, id_rho) and generate_model_hashes():
      path_vib_model, path_rho_model, hash_vib, hash_rho *)
  Variable files : json -> json -> json -> res (string * string * string * string).
  (** the class attribute delta_beta, pimc.py:443 *)
  Definition class_delta_beta : json := JFloat "0.0".

  (** pimc.py:543-593 on a new object *)
  Definition load_json_string (text : string) : res boxdata :=
    do params <- decode text;
    do x <- sub params (sep_value X_);
    do nb <- sub params (sep_value nBlk_);
    do a <- sub params (sep_value A_);
    do p <- sub params (sep_value P_);
    do n <- sub params (sep_value N_);
    do t <- sub params (sep_value T_);
    do bs <- sub params (sep_value BlkS_);
    do d <- sub params (sep_value D_);
    do r <- sub params (sep_value R_);
    do hb <- mem params (sep_value beta_);
    do be <- (if hb then sub params (sep_value beta_) else inv_kT t);
    do ht <- mem params (sep_value tau_);
    do ta <- (if ht then sub params (sep_value tau_) else divide be p);
    do hd <- mem params (sep_value dB_);
    do db <- (if hd
              then do v <- sub params (sep_value dB_);
                   Ok (match v with JFloat _ => v | _ => class_delta_beta end)
              else Ok class_delta_beta);
    do root <- sub params "path_root";
    do f <- files root d r;
    let '(pv, pr, hv, hr) := f in
    Ok {| samples := x; blocks := nb; states := a; beads := p; modes := n; temperature := t; block_size := bs;
          delta_beta := db; id_data := d; id_rho := r; beta := be; tau := ta;
          path_vib_model := pv; path_rho_model := pr; hash_vib := hv; hash_rho := hr |}.
End Load.
