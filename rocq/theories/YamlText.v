(** Model of the text of job configuration files: how the preprocessor writes
    a configuration (preprocessor.py:1168-1190) and how it is loaded again
    with the project's loader (shared_tools.py:484-520, used in
    init_tools.py:100-123 and preprocessor.py:146-158).

    The loader is PyYAML's SafeLoader with one more resolver.  The behaviour
    of PyYAML written down here (scanner, resolvers and constructors for
    one-line plain scalars in a block mapping at the left margin) is not in
    /repo; it is part of the trusted base.  Quoted, flow, multi-line, tagged
    and non-ASCII text is not modelled: the loader below answers
    [NotImplementedError] for it. *)
From Coq Require Import ZArith NArith List Bool String Ascii.
From Verif Require Import Base Dict Text Config Regex.
Import ListNotations.
Local Open Scope string_scope.

(** str(z) for an integer — preprocessor.py:1185 *)
Definition pyint (z : Z) : string :=
  match z with
  | Zneg p => "-" ++ pystr (Npos p)
  | _ => pystr (Z.to_N z)
  end.

(** ** Resolvers *)
(** Bracket expressions — the loader of shared_tools.py:484-520; PyYAML *)
Definition digits09 : string := "0123456789".
(** the loader of shared_tools.py:484-520; PyYAML *)
Definition d09 : re := Cls digits09.
(** the loader of shared_tools.py:484-520; PyYAML *)
Definition d09_ : re := Cls "0123456789_".
(** the loader of shared_tools.py:484-520; PyYAML *)
Definition sign : re := Opt (Cls "-+").
(** [0-9][0-9_]* *)
Definition digits_ : re := Cat d09 (Star d09_).
(** (?::[0-5]?[0-9])+ *)
Definition sixties : re := Plus (Cat (Word ":") (Cat (Opt (Cls "012345")) d09)).

(** The resolver for floats that the project adds — shared_tools.py:506-518 *)
Definition exponent : re := Cat (Cls "eE") (Cat sign (Plus d09)).
(** shared_tools.py:506-518 *)
Definition custom_float : re := OneOf [
  Cat sign (Cat digits_ (Cat (Word ".") (Cat (Star d09_) (Opt exponent))));
  Cat sign (Cat digits_ exponent);
  Cat (Word ".") (Cat (Plus d09_) (Opt exponent));
  Cat sign (Cat digits_ (Cat sixties (Cat (Word ".") (Star d09_))));
  Cat sign (Cat (Word ".") (OneOf [Word "inf"; Word "Inf"; Word "INF"]));
  Cat (Word ".") (OneOf [Word "nan"; Word "NaN"; Word "NAN"])].

(** PyYAML, resolver.py: bool *)
Definition yaml_true : list string := ["yes"; "Yes"; "YES"; "true"; "True"; "TRUE"; "on"; "On"; "ON"].
(** the loader of shared_tools.py:484-520; PyYAML *)
Definition yaml_false : list string := ["no"; "No"; "NO"; "false"; "False"; "FALSE"; "off"; "Off"; "OFF"].
(** the loader of shared_tools.py:484-520; PyYAML *)
Definition bool_re : re := OneOf (map Word (yaml_true ++ yaml_false)).
(** PyYAML, resolver.py: float *)
Definition signed_exponent : re := Cat (Cls "eE") (Cat (Cls "-+") (Plus d09)).
(** the loader of shared_tools.py:484-520; PyYAML *)
Definition float_re : re := OneOf [
  Cat sign (Cat digits_ (Cat (Word ".") (Cat (Star d09_) (Opt signed_exponent))));
  Cat (Word ".") (Cat digits_ (Opt signed_exponent));
  Cat sign (Cat digits_ (Cat sixties (Cat (Word ".") (Star d09_))));
  Cat sign (Cat (Word ".") (OneOf [Word "inf"; Word "Inf"; Word "INF"]));
  Cat (Word ".") (OneOf [Word "nan"; Word "NaN"; Word "NAN"])].
(** PyYAML, resolver.py: int *)
Definition int_re : re := OneOf [
  Cat sign (Cat (Word "0b") (Plus (Cls "01_")));
  Cat sign (Cat (Word "0") (Plus (Cls "01234567_")));
  Cat sign (Alt (Word "0") (Cat (Cls "123456789") (Star d09_)));
  Cat sign (Cat (Word "0x") (Plus (Cls "0123456789abcdefABCDEF_")));
  Cat sign (Cat (Cat (Cls "123456789") (Star d09_)) sixties)].
(** PyYAML, resolver.py: merge, null, timestamp, value *)
Definition merge_re : re := Word "<<".
(** the loader of shared_tools.py:484-520; PyYAML *)
Definition null_re : re := OneOf [Word "~"; Word "null"; Word "Null"; Word "NULL"; Eps].
(** the loader of shared_tools.py:484-520; PyYAML *)
Definition d2 : re := Cat d09 d09.
(** the loader of shared_tools.py:484-520; PyYAML *)
Definition d12 : re := Cat d09 (Opt d09).
(** the loader of shared_tools.py:484-520; PyYAML *)
Definition year : re := Cat d2 d2.
(** the loader of shared_tools.py:484-520; PyYAML *)
Definition blanks : re := Cls (String " " (String "009" "")).
(** the loader of shared_tools.py:484-520; PyYAML *)
Definition timestamp_re : re := OneOf [
  Seq [year; Word "-"; d2; Word "-"; d2];
  Seq [year; Word "-"; d12; Word "-"; d12; Alt (Cls "Tt") (Plus blanks);
       d12; Word ":"; d2; Word ":"; d2; Opt (Cat (Word ".") (Star d09));
       Opt (Cat (Star blanks) (Alt (Word "Z") (Seq [Cls "-+"; d12; Opt (Cat (Word ":") d2)])))]].
(** the loader of shared_tools.py:484-520; PyYAML *)
Definition value_re : re := Word "=".

(** the loader of shared_tools.py:484-520; PyYAML *)
Inductive tag : Type := TagBool | TagFloat | TagInt | TagNull | TagOther.

(** The resolvers in the order in which they are tried; a text that none of
    them matches is a string.  (PyYAML looks only at the resolvers registered
    for the first character; every one of them is registered for all the
    characters that its expression can start with.) — the loader of shared_tools.py:484-520; PyYAML *)
Definition resolvers : list (re * tag) :=
  [(bool_re, TagBool); (float_re, TagFloat); (int_re, TagInt); (merge_re, TagOther); (null_re, TagNull);
   (timestamp_re, TagOther); (value_re, TagOther); (custom_float, TagFloat)].
(** the loader of shared_tools.py:484-520; PyYAML *)
Fixpoint first_match (l : list (re * tag)) (s : string) : option tag :=
  match l with
  | [] => None
  | (r, t) :: l' => if matches r s then Some t else first_match l' s
  end.

(** ** Constructors *)
(** value.replace("_", "") — the loader of shared_tools.py:484-520; PyYAML *)
Fixpoint no_underscores (s : string) : string :=
  match s with
  | "" => ""
  | String c s' => if Ascii.eqb c "_" then no_underscores s' else String c (no_underscores s')
  end.
(** int(s, base) for digits — the loader of shared_tools.py:484-520; PyYAML *)
Definition digit_value (c : ascii) : Z :=
  let n := Z.of_nat (nat_of_ascii c) in
  if Z.leb 97 n then (n - 87)%Z else if Z.leb 65 n then (n - 55)%Z else (n - 48)%Z.
(** the loader of shared_tools.py:484-520; PyYAML *)
Fixpoint read_digits (base acc : Z) (s : string) : Z :=
  match s with
  | "" => acc
  | String c s' => read_digits base (acc * base + digit_value c)%Z s'
  end.
(** The digits between colons, in base sixty — the loader of shared_tools.py:484-520; PyYAML *)
Fixpoint read_sixties (acc part : Z) (s : string) : Z :=
  match s with
  | "" => (acc * 60 + part)%Z
  | String c s' =>
      if Ascii.eqb c ":" then read_sixties (acc * 60 + part)%Z 0 s'
      else read_sixties acc (part * 10 + digit_value c)%Z s'
  end.
(** PyYAML, constructor.py: construct_yaml_int *)
Definition magnitude (s : string) : result Z :=
  match s with
  | "0" => Ok 0%Z
  | String "0" (String "b" "") | String "0" (String "x" "") => Err ValueError
  | String "0" (String "b" s') => Ok (read_digits 2 0 s')
  | String "0" (String "x" s') => Ok (read_digits 16 0 s')
  | String "0" _ => Ok (read_digits 8 0 s)
  | _ => Ok (if has ":" s then read_sixties 0 0 s else read_digits 10 0 s)
  end.
(** the loader of shared_tools.py:484-520; PyYAML *)
Definition read_int (s : string) : result Z :=
  match no_underscores s with
  | String "-" s' => do z <- magnitude s'; Ok (- z)%Z
  | String "+" s' => magnitude s'
  | s' => magnitude s'
  end.

Section Yaml.
  Context {F : Type}.
  (** str(x) of a float, and the float that PyYAML's construct_yaml_float
      makes of a text that resolves to a float. *)
  Context (fstr : F -> string) (float_of : string -> F).
  Notation value := (value F).

  (** The text of a value — preprocessor.py:1180-1185.  Lists and mappings are
      not modelled. *)
  Definition value_text (v : value) : result string :=
    match v with
    | VNone => Ok "null"
    | VBool b => Ok (if b then "True" else "False")
    | VInt z => Ok (pyint z)
    | VFloat x => Ok (fstr x)
    | VStr s => Ok s
    | VList _ | VDict _ => Err NotImplementedError
    end.
  (** preprocessor.py:1185 *)
  Definition newline : string := String "010" "".
  (** preprocessor.py:1187-1189: the lines of a configuration. *)
  Fixpoint config_text (c : dict value) : result string :=
    match c with
    | [] => Ok ""
    | (k, v) :: c' =>
        do t <- value_text v;
        do r <- config_text c';
        Ok (k ++ ": " ++ t ++ newline ++ r)
    end.

  (** The value of a plain scalar. The loader of shared_tools.py:484-520; PyYAML. *)
  Definition plain_value (s : string) : result value :=
    match first_match resolvers s with
    | Some TagNull => Ok VNone
    | Some TagBool => Ok (VBool (existsb (String.eqb s) yaml_true))
    | Some TagInt => do z <- read_int s; Ok (VInt z)
    | Some TagFloat => Ok (VFloat (float_of s))
    | Some TagOther => Err NotImplementedError
    | None => Ok (VStr s)
    end.

  (** ** Scanner *)
  (** PyYAML, scanner.py: check_plain *)
  Definition blank_next (s : string) : bool :=
    match s with "" => true | String c _ => Ascii.eqb c " " end.
  (** the loader of shared_tools.py:484-520; PyYAML *)
  Definition indicators : string := "-?:,[]{}#&*!|>'%@`" ++ String "034" "".
  (** the loader of shared_tools.py:484-520; PyYAML *)
  Definition plain_start (s : string) : bool :=
    match s with
    | "" => false
    | String c s' =>
        negb (Ascii.eqb c " ") && (negb (has c indicators) || (has c "-?:" && negb (blank_next s')))
    end.
  (** PyYAML, scanner.py: scan_plain within a line.  [sp] are spaces seen
      since the last character taken. *)
  Fixpoint scan_plain (sp s : string) : string * string :=
    match s with
    | "" => ("", "")
    | String c s' =>
        if Ascii.eqb c " " then scan_plain (sp ++ " ") s'
        else if Ascii.eqb c "#" && negb (String.eqb sp "") then ("", s)
        else if Ascii.eqb c ":" && blank_next s' then ("", s)
        else let (t, r) := scan_plain "" s' in (sp ++ String c t, r)
    end.
  (** the loader of shared_tools.py:484-520; PyYAML *)
  Fixpoint skip_spaces (s : string) : string :=
    match s with
    | String c s' => if Ascii.eqb c " " then skip_spaces s' else s
    | "" => ""
    end.
  (** The rest of a line after the colon. *)
  (** The end of a line, or a comment up to it. The loader of shared_tools.py:484-520; PyYAML. *)
  Definition at_end (s : string) : bool :=
    match s with "" => true | String c _ => Ascii.eqb c "#" end.
  (** the loader of shared_tools.py:484-520; PyYAML *)
  Definition load_value (s : string) : result value :=
    let s := skip_spaces s in
    if at_end s then Ok VNone
    else if plain_start s then
      let (t, r) := scan_plain "" s in
      if at_end r then plain_value t else Err PlainException
    else Err NotImplementedError.
  (** the loader of shared_tools.py:484-520; PyYAML *)
  Definition printable (c : ascii) : bool :=
    let n := nat_of_ascii c in Nat.leb 32 n && Nat.leb n 126.
  (** One line: nothing, or a key and its value. The loader of shared_tools.py:484-520; PyYAML. *)
  Definition load_line (s : string) : result (option (string * value)) :=
    if negb (all_chars printable s) then Err NotImplementedError
    else if at_end s then Ok None
    else if plain_start s && negb (prefix "---" s) && negb (prefix "..." s) then
      match scan_plain "" s with
      | (k, String ":" r) =>
          do kv <- plain_value k;
          match kv with
          | VStr k => do v <- load_value r; Ok (Some (k, v))
          | _ => Err NotImplementedError
          end
      | _ => Err PlainException
      end
    else Err NotImplementedError.
  (** Splitting at newlines; the last piece is what follows the last one. The loader of shared_tools.py:484-520; PyYAML. *)
  Fixpoint lines (s : string) : list string :=
    match s with
    | "" => [""]
    | String c s' =>
        if Ascii.eqb c "010" then "" :: lines s'
        else match lines s' with
             | l :: ls => String c l :: ls
             | [] => [String c ""]
             end
    end.
  (** PyYAML, constructor.py: construct_mapping; a later entry for a key
      wins. *)
  Fixpoint load_lines (l : list string) (d : dict value) : result (dict value) :=
    match l with
    | [] => Ok d
    | s :: l' =>
        do kv <- load_line s;
        load_lines l' (match kv with Some (k, v) => dset k v d | None => d end)
    end.
  (** yaml.load — init_tools.py:117-119, preprocessor.py:155-157 *)
  Definition load_text (s : string) : result (file F) :=
    do d <- load_lines (lines s) [];
    Ok (match d with [] => EmptyFile | _ => Mapping d end).
End Yaml.
