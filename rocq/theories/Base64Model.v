(** * Base64: the C functions of Python 2.7's binascii module and
    request_parser/utils/http.py:212-229 *)
From Verif Require Import Py.

Definition pad : N := 61%N.

(** [table_b2a_base64] *)
Definition b64char (v : N) : char :=
  if N.ltb v 26 then (65 + v)%N
  else if N.ltb v 52 then (71 + v)%N
  else if N.ltb v 62 then (v - 4)%N
  else if N.eqb v 62 then 43%N else 47%N.

(** [table_a2b_base64], for characters other than '=' ([None] is -1) *)
Definition b64val (c : char) : option N :=
  if is_upper c then Some (c - 65)%N
  else if is_lower c then Some (c - 71)%N
  else if is_digit c then Some (c + 4)%N
  else if N.eqb c 43 then Some 62%N
  else if N.eqb c 47 then Some 63%N
  else None.

(** [binascii.b2a_base64] without the final newline *)
Fixpoint b64encode (s : str) : str :=
  match s with
  | a :: b :: c :: t =>
      b64char (a / 4) :: b64char ((a mod 4) * 16 + b / 16)
      :: b64char ((b mod 16) * 4 + c / 64) :: b64char (c mod 64) :: b64encode t
  | [a; b] => [b64char (a / 4); b64char ((a mod 4) * 16 + b / 16); b64char ((b mod 16) * 4); pad]
  | [a] => [b64char (a / 4); b64char ((a mod 4) * 16); pad; pad]
  | [] => []
  end%N.

(** [binascii_find_valid(s, len, 1)] called at a '=': the next character of the
    base64 alphabet or '=' after it, if any ([table_a2b_base64['=']] is 0) *)
Fixpoint next_valid (s : str) : option char :=
  match s with
  | [] => None
  | c :: t => if N.eqb c pad then Some c
              else match b64val c with Some _ => Some c | None => next_valid t end
  end.

(** state of the decoding loop: [quad_pos], [leftchar], [leftbits] *)
Record b64st := mkB64 { b_quad : nat; b_char : N; b_bits : N }.
Definition b64_init : b64st := mkB64 0 0 0.

(** shifting in one six-bit value *)
Definition b64_shift (v : N) (st : b64st) : str * b64st :=
  let lc := (b_char st * 64 + v)%N in
  let lb := (b_bits st + 6)%N in
  let q := (S (b_quad st)) mod 4 in
  if N.leb 8 lb then ([((lc / 2 ^ (lb - 8)) mod 256)%N], mkB64 q (lc mod 2 ^ (lb - 8))%N (lb - 8)%N)
  else ([], mkB64 q lc lb).

(** the loop: output so far (reversed order not used: output is appended by the caller)
    and the final number of left-over bits *)
Fixpoint a2b_loop (s : str) (st : b64st) : str * N :=
  match s with
  | [] => ([], b_bits st)
  | c :: t =>
      if N.eqb c pad then
        if Nat.ltb (b_quad st) 2
           || (Nat.eqb (b_quad st) 2 && negb (match next_valid t with Some d => N.eqb d pad | None => false end))
        then a2b_loop t st                       (* an invalid pad sequence is ignored *)
        else ([], 0%N)                           (* end of data *)
      else match b64val c with
           | None => a2b_loop t st               (* CR, LF, space, anything else: skipped *)
           | Some v => let (out, st') := b64_shift v st in
                       let (rest, lb) := a2b_loop t st' in (out ++ rest, lb)
           end
  end.

(** [base64.b64decode]: binascii.Error ("Incorrect padding") becomes TypeError in Python 2 *)
Definition b64decode (s : str) : res str :=
  let (out, lb) := a2b_loop s b64_init in
  if N.eqb lb 0 then Ok out else Err TypeError.

(** [base64.urlsafe_b64encode] / [urlsafe_b64decode]: '+' <-> '-', '/' <-> '_' *)
Definition to_urlsafe (c : char) : char := if N.eqb c 43 then 45%N else if N.eqb c 47 then 95%N else c.
Definition of_urlsafe (c : char) : char := if N.eqb c 45 then 43%N else if N.eqb c 95 then 47%N else c.

(** [urlsafe_base64_encode]  utils/http.py:212-217 *)
Definition urlsafe_base64_encode (s : str) : str :=
  rstrip_by (fun c => N.eqb c LF || N.eqb c pad) (map to_urlsafe (b64encode s)).

(** [urlsafe_base64_decode]  utils/http.py:220-229.  [s.encode()] fails for non-ASCII
    text with a UnicodeError, which is a ValueError; line 228 does not catch the
    TypeError that Python 2's base64 module raises. *)
Definition urlsafe_base64_decode (s : str) : res str :=
  if ascii_only s
  then b64decode (map of_urlsafe (s ++ repeat pad (length s mod 4)))
  else Err UnicodeDecodeError.
