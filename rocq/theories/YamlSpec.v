(** Which configurations are meant to survive being written to a job file and
    loaded again. *)
From Coq Require Import ZArith NArith List Bool String Ascii.
From Verif Require Import Base Dict Text Config Regex YamlText.
Import ListNotations.
Local Open Scope string_scope.

(** A non-empty text of digits. *)
Definition digit_text (s : string) : Prop := s <> "" /\ all_chars is_digit s = true.

(** The text that Python's str gives for a finite float: a sign if negative,
    digits, a fraction or an exponent or both. *)
Definition float_text (s : string) : Prop :=
  exists sg ip fp ex, s = sg ++ ip ++ fp ++ ex /\
    (sg = "" \/ sg = "-") /\ digit_text ip /\
    (fp = "" \/ exists d, digit_text d /\ fp = "." ++ d) /\
    (ex = "" \/ exists g d, (g = "+" \/ g = "-") /\ digit_text d /\ ex = "e" ++ g ++ d) /\
    ~ (fp = "" /\ ex = "").

(** Any decimal notation of a number with a fraction or an exponent, as users
    write it: 0.5, 5., 1e5, 3.0E-7, -2.5e+3. *)
Definition decimal_text (s : string) : Prop :=
  exists sg ip fp ex, s = sg ++ ip ++ fp ++ ex /\
    (sg = "" \/ sg = "-") /\ digit_text ip /\
    (fp = "" \/ exists d, all_chars is_digit d = true /\ fp = "." ++ d) /\
    (ex = "" \/ exists e g d, (e = "e" \/ e = "E") /\ (g = "" \/ g = "+" \/ g = "-") /\ digit_text d /\ ex = e ++ g ++ d) /\
    ~ (fp = "" /\ ex = "").

(** A text that YAML takes as one word or phrase on a line: printable, with
    no character of special meaning at its start, no ": " and no " #" in it,
    and neither a space nor a colon at its end. *)
Record plain_text (s : string) : Prop := {
  pt_printable : all_chars printable s = true;
  pt_first : exists c r, s = String c r /\ c <> " "%char /\ has c indicators = false;
  pt_colon : forall a b, s <> a ++ ": " ++ b;
  pt_hash : forall a b, s <> a ++ " #" ++ b;
  pt_end : forall a, s <> a ++ " " /\ s <> a ++ ":"
}.

(** A text with a meaning other than itself: a number, a truth value, a date
    and so on. *)
Definition special (s : string) : Prop := exists r t, In (r, t) resolvers /\ Matches r s.

Section YamlSpec.
  Context {F : Type} (fstr : F -> string) (float_of : string -> F).

  (** Values that come back: None, truth values, integers; floats that Python
      writes in the usual form (and reads back as themselves); plain texts
      without another meaning. *)
  Definition readable (v : value F) : Prop :=
    match v with
    | VNone | VBool _ | VInt _ => True
    | VFloat x => float_text (fstr x) /\ float_of (fstr x) = x
    | VStr s => plain_text s /\ ~ special s
    | VList _ | VDict _ => False
    end.

  (** Names of parameters: letters, digits and underscores, a letter first,
      and no truth value or the like. *)
  Definition letter (c : ascii) : bool :=
    let n := nat_of_ascii c in (Nat.leb 65 n && Nat.leb n 90) || (Nat.leb 97 n && Nat.leb n 122).
  Definition good_key (k : string) : Prop :=
    (exists c r, k = String c r /\ letter c = true) /\
    all_chars (fun c => letter c || is_digit c || Ascii.eqb c "_") k = true /\ ~ special k.
End YamlSpec.

(** The name of an output folder under which jobs are put: printable, no
    character of special meaning at its start, no ": " and no " #" in it. *)
Record folder_text (s : string) : Prop := {
  ft_printable : all_chars printable s = true;
  ft_first : exists c r, s = String c r /\ c <> " "%char /\ has c indicators = false;
  ft_colon : forall a b, s <> a ++ ": " ++ b;
  ft_hash : forall a b, s <> a ++ " #" ++ b
}.
