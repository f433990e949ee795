(** * Python 2.7 built-ins used by request_parser.

    Nothing in this file models code of the repository; it fixes the semantics
    of the Python operations which the repository's code calls.  Characters are
    numbers ([N]); a byte string (Python 2 [str]) and a unicode string are both
    lists of characters. *)
From Coq Require Export Ascii String.
From Coq Require Export List NArith ZArith Arith Bool Lia.
Export ListNotations.
Close Scope string_scope.
Open Scope list_scope.
Open Scope nat_scope.

Notation char := N (only parsing).
Definition str := list N.

(** String literals: [lit "abc"] is the list of the character codes. *)
Definition lit (s : string) : str := map N_of_ascii (list_ascii_of_string s).
Notation "'!' s" := (lit s%string) (at level 1, s at level 0, only parsing).

Definition CR : N := 13%N.
Definition LF : N := 10%N.
Definition crlf : str := [13%N; 10%N].
Definition crlfcrlf : str := [13%N; 10%N; 13%N; 10%N].

(** ** Exceptions.  [OutOfFuel] is not a Python exception: it marks a loop that
    did not finish within the given fuel. *)
Inductive ihr_reason :=
| NoTerminator          (* "Invalid HTTP request."                                   request.py:431 *)
| BadRequestLineEnd     (* "Invalid request. Request line terminated incorrectly."   request.py:814 *)
| BadHeaderLine         (* "Invalid request header: ..."                             request.py:841 *)
| NoHeaders             (* "Invalid request. No request headers."                    request.py:846 *)
| BadRequestLine.       (* "Invalid request line."                                   request.py:861 *)

Inductive exn :=
| InvalidHttpRequest (r : ihr_reason)
| NoHostFoundException
| RequestHeaderParseException
| RawPostDataException
| UnreadablePostError
| RequestDataTooBig
| TooManyFieldsSent
| SuspiciousMultipartForm
| MultiPartParserError
| InputStreamExhausted
| StopFutureHandlers
| UnicodeDecodeError
| UnicodeEncodeError
| LookupError
| ValueError
| TypeError
| AttributeError
| KeyError
| IndexError
| AssertionError
| OverflowError
| ImportError
| IOError
| OutOfFuel.

Inductive res (A : Type) :=
| Ok (a : A)
| Err (e : exn).
Arguments Ok {A} a.
Arguments Err {A} e.

Definition bind {A B} (r : res A) (f : A -> res B) : res B :=
  match r with Ok a => f a | Err e => Err e end.
Notation "'let*' x ':=' r 'in' f" := (bind r (fun x => f))
  (at level 200, x pattern, right associativity).

(** ** Equality and prefixes *)
Fixpoint seqb (a b : str) : bool :=
  match a, b with
  | [], [] => true
  | x :: a', y :: b' => N.eqb x y && seqb a' b'
  | _, _ => false
  end.

Fixpoint prefixb (p s : str) : bool :=
  match p, s with
  | [], _ => true
  | x :: p', y :: s' => N.eqb x y && prefixb p' s'
  | _ :: _, [] => false
  end.

Definition startswith (s p : str) : bool := prefixb p s.
Definition endswith (s p : str) : bool := prefixb (rev p) (rev s).
Definition mem (c : char) (s : str) : bool := existsb (N.eqb c) s.
Definition nonempty (s : str) : bool := match s with [] => false | _ => true end.

(** ** Slicing.  [s[:n]], [s[n:]], [s[a:b]] for 0 <= a, b; [s[:-n]], [s[-n:]] for n > 0. *)
Definition upto (n : nat) (s : str) : str := firstn n s.
Definition from (n : nat) (s : str) : str := skipn n s.
Definition slice (a b : nat) (s : str) : str := firstn (b - a) (skipn a s).
Definition upto_neg (n : nat) (s : str) : str := firstn (length s - n) s.
Definition from_neg (n : nat) (s : str) : str := skipn (length s - n) s.

(** ** Searching *)
(** [s.find(p)]; [None] is Python's -1. *)
Fixpoint find (p s : str) : option nat :=
  if prefixb p s then Some 0
  else match s with
       | [] => None
       | _ :: t => option_map S (find p t)
       end.

(** [s.find(p, i)] *)
Definition find_from (p s : str) (i : nat) : option nat :=
  if Nat.ltb (length s) i then None
  else option_map (Nat.add i) (find p (skipn i s)).

(** [s.find(c)] for a one-character string *)
Fixpoint findc (c : char) (s : str) : option nat :=
  match s with
  | [] => None
  | x :: t => if N.eqb x c then Some 0 else option_map S (findc c t)
  end.

(** [s.rfind(c)] *)
Fixpoint rfindc (c : char) (s : str) : option nat :=
  match s with
  | [] => None
  | x :: t => match rfindc c t with
              | Some i => Some (S i)
              | None => if N.eqb x c then Some 0 else None
              end
  end.

(** [s.count(c)] *)
Definition countc (c : char) (s : str) : nat := count_occ N.eq_dec s c.

(** ** Splitting and joining *)
(** [s.split(c)] for a one-character separator *)
Fixpoint splitc (c : char) (s : str) : list str :=
  match s with
  | [] => [[]]
  | x :: t =>
      if N.eqb x c then [] :: splitc c t
      else match splitc c t with
           | h :: r => (x :: h) :: r
           | [] => [[x]]                    (* not reachable *)
           end
  end.

(** [s.split(p)] for a non-empty separator; the fuel [length s] is always enough. *)
Fixpoint split_fuel (fuel : nat) (p s : str) : list str :=
  match fuel with
  | 0 => [s]
  | S f => match find p s with
           | None => [s]
           | Some i => firstn i s :: split_fuel f p (skipn (i + length p) s)
           end
  end.
Definition split (p s : str) : list str := split_fuel (S (length s)) p s.

(** [s.split(c, 1)] as an option: [Some (a, b)] when the separator occurs. *)
Definition split1 (c : char) (s : str) : option (str * str) :=
  match findc c s with
  | None => None
  | Some i => Some (firstn i s, skipn (S i) s)
  end.

(** [s.rsplit(c, 1)] as an option *)
Definition rsplit1 (c : char) (s : str) : option (str * str) :=
  match rfindc c s with
  | None => None
  | Some i => Some (firstn i s, skipn (S i) s)
  end.

Fixpoint join (sep : str) (l : list str) : str :=
  match l with
  | [] => []
  | [x] => x
  | x :: r => x ++ sep ++ join sep r
  end.

(** ** Whitespace.  [str.strip()] for byte strings: "\t\n\x0b\x0c\r ". *)
Definition is_ws (c : char) : bool :=
  (N.leb 9 c && N.leb c 13) || N.eqb c 32.

Fixpoint lstrip_by (f : char -> bool) (s : str) : str :=
  match s with
  | [] => []
  | x :: t => if f x then lstrip_by f t else s
  end.
Definition rstrip_by (f : char -> bool) (s : str) : str := rev (lstrip_by f (rev s)).
Definition strip_by (f : char -> bool) (s : str) : str := rstrip_by f (lstrip_by f s).
Definition strip (s : str) : str := strip_by is_ws s.

(** [u.strip()] for unicode strings (characters with the Unicode White_Space/bidi class Python uses). *)
Definition is_uws (c : char) : bool :=
  is_ws c || (N.leb 28 c && N.leb c 31) || N.eqb c 133 || N.eqb c 160 || N.eqb c 5760
  || (N.leb 8192 c && N.leb c 8202) || N.eqb c 8232 || N.eqb c 8233 || N.eqb c 8239
  || N.eqb c 8287 || N.eqb c 12288.
Definition ustrip (s : str) : str := strip_by is_uws s.

(** ["".join(s.split())]: all whitespace removed *)
Definition remove_ws (s : str) : str := filter (fun c => negb (is_ws c)) s.

(** ** Case *)
Definition lowerc (c : char) : char :=
  if N.leb 65 c && N.leb c 90 then (c + 32)%N else c.
Definition lower (s : str) : str := map lowerc s.

(** ** Replacing *)
Definition replacec (a b : char) (s : str) : str :=
  map (fun c => if N.eqb c a then b else c) s.

(** [s.replace(p, r)] for a non-empty two-character pattern [p = [p1; p2]]. *)
Fixpoint replace2 (p1 p2 : char) (r s : str) : str :=
  match s with
  | x :: ((y :: t) as t') =>
      if N.eqb x p1 && N.eqb y p2 then r ++ replace2 p1 p2 r t
      else x :: replace2 p1 p2 r t'
  | _ => s
  end.

(** ** Character classes *)
Definition is_ascii (c : char) : bool := N.ltb c 128.
Definition ascii_only (s : str) : bool := forallb is_ascii s.
Definition is_byte (c : char) : bool := N.ltb c 256.
Definition bytes_only (s : str) : bool := forallb is_byte s.
Definition is_digit (c : char) : bool := N.leb 48 c && N.leb c 57.
Definition is_upper (c : char) : bool := N.leb 65 c && N.leb c 90.
Definition is_lower (c : char) : bool := N.leb 97 c && N.leb c 122.
Definition is_alpha (c : char) : bool := is_upper c || is_lower c.
Definition is_alnum (c : char) : bool := is_alpha c || is_digit c.
(** regex [\w] without the UNICODE/LOCALE flags *)
Definition is_word (c : char) : bool := is_alnum c || N.eqb c 95.

(** ** [int(s)] and [int(s, base)] for byte strings: surrounding whitespace, an
    optional sign, then at least one digit of the base.  [None] is ValueError.
    (An optional "0x" prefix with base 16 is not accepted here: the only caller
    with base 16 passes [0-9a-fA-F]* or \w* without 'x' as second character; see int16 in HeaderModel.) *)
Definition digit_val (c : char) : option N :=
  if is_digit c then Some (c - 48)%N
  else if is_lower c then Some (c - 87)%N
  else if is_upper c then Some (c - 55)%N
  else None.

Fixpoint int_digits (base acc : N) (s : str) : option N :=
  match s with
  | [] => Some acc
  | c :: t => match digit_val c with
              | Some d => if N.ltb d base then int_digits base (acc * base + d)%N t else None
              | None => None
              end
  end.

Definition int_nat (base : N) (s : str) : option N :=
  match s with [] => None | _ => int_digits base 0%N s end.

Definition py_int (base : N) (s : str) : option Z :=
  let s := strip s in
  match s with
  | c :: t =>
      if N.eqb c 45 then option_map (fun n => (- Z.of_N n)%Z) (int_nat base t)
      else if N.eqb c 43 then option_map Z.of_N (int_nat base t)
      else option_map Z.of_N (int_nat base s)
  | [] => None
  end.

(** Sizes *)
Definition zlen (s : str) : Z := Z.of_nat (length s).
