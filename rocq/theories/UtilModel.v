(** * Model of the small helpers of request_parser/utils/http.py *)
From Verif Require Import Py HeadModel.

(** ** Base 36: utils/http.py:185-209 *)
Definition base36_to_int (s : str) : res Z :=
  if Nat.ltb 13 (length s) then Err ValueError                      (* 193-194 *)
  else match py_int 36 s with Some z => Ok z | None => Err ValueError end.

(** [char_set[n]] (line 200) *)
Definition char36 (n : N) : char := if N.ltb n 10 then (48 + n)%N else (87 + n)%N.

(** the loop of lines 206-208; [i] loses at least one bit per turn *)
Fixpoint b36_loop (fuel : nat) (i : N) (b36 : str) : str :=
  match fuel with
  | 0 => b36
  | S f => if N.eqb i 0 then b36 else b36_loop f (i / 36) (char36 (i mod 36) :: b36)
  end.
Definition int_to_base36 (i : Z) : res str :=
  if Z.ltb i 0 then Err ValueError                                  (* 201-202 *)
  else if Z.ltb i 36 then Ok [char36 (Z.to_N i)]                    (* 203-204 *)
  else Ok (b36_loop (N.size_nat (Z.to_N i)) (Z.to_N i) []).

(** ** ETags: utils/http.py:22-29, 232-254 *)
Definition dquote : N := 34%N.
Definition comma : N := 44%N.
Definition star : N := 42%N.

(** a double quote, other characters, a double quote, end of the string *)
Definition quoted_re (s : str) : bool :=
  match s with
  | c :: r => N.eqb c dquote && match rev r with
                                | d :: m => N.eqb d dquote && negb (mem dquote m)
                                | [] => false
                                end
  | [] => false
  end.
(** [ETAG_MATCH]: an optional "W/", then a quoted string *)
Definition etag_match (s : str) : bool :=
  if startswith s !"W/" then quoted_re (skipn 2 s) else quoted_re s.

Definition parse_etags (s : str) : list str :=
  if seqb (strip s) [star] then [[star]]                            (* 238-239 *)
  else filter etag_match (map strip (splitc comma s)).              (* 242-243 *)

Definition quote_etag (s : str) : str :=
  if etag_match s then s else [dquote] ++ s ++ [dquote].            (* 251-254 *)

(** ** [is_same_domain]  utils/http.py:257-273 *)
Definition is_same_domain (host pattern : str) : bool :=
  match lower pattern with
  | [] => false
  | c :: rest =>
      N.eqb c 46 && (endswith host (c :: rest) || seqb host rest) || seqb (c :: rest) host
  end.

(** ** [escape_leading_slashes]  utils/http.py:433-441 *)
Definition escape_leading_slashes (url : str) : str :=
  if startswith url !"//" then !"/%2F" ++ skipn 2 url else url.

(** ** [is_safe_url]  utils/http.py:276-297, 348-374, for unicode strings.
    [ctl c] is [unicodedata.category(c)[0] == 'C']. *)
Definition is_safe_url1 (ctl : char -> bool) (url : str) (hosts : list str) (require_https : bool) : bool :=
  if startswith url !"///" then false                               (* 351-352 *)
  else match urlparse_text url with
       | Err _ => false                                             (* 353-356 *)
       | Ok u =>
           if negb (nonempty (up_netloc u)) && nonempty (up_scheme u) then false   (* 361-362 *)
           else if ctl (hd 0%N url) then false                      (* 366-367; url is not empty *)
           else
             let scheme := if negb (nonempty (up_scheme u)) && nonempty (up_netloc u)
                           then !"http" else up_scheme u in         (* 368-371 *)
             let valid := if require_https then [!"https"] else [!"http"; !"https"] in
             (negb (nonempty (up_netloc u)) || existsb (seqb (up_netloc u)) hosts)
             && (negb (nonempty scheme) || existsb (seqb scheme) valid)
       end.

(** [hosts]: the empty list for [None], a one-element list for a string (290-293) *)
Definition is_safe_url (ctl : char -> bool) (url : option str) (hosts : list str) (require_https : bool) : bool :=
  match url with
  | None => false
  | Some u0 =>
      let u := ustrip u0 in
      if negb (nonempty u) then false
      else is_safe_url1 ctl u hosts require_https
           && is_safe_url1 ctl (replacec 92%N 47%N u) hosts require_https   (* 296-297 *)
  end.

(** the same for Python 2 byte strings: [unicodedata.category] raises TypeError for
    them, and bytes >= 0x80 make the URL parser raise a ValueError, which is caught *)
Definition is_safe_url1_native (url : str) : res bool :=
  if startswith url !"///" then Ok false
  else match urlparse url with
       | Err _ => Ok false
       | Ok u => if negb (nonempty (up_netloc u)) && nonempty (up_scheme u) then Ok false
                 else Err TypeError
       end.
Definition is_safe_url_native (url : option str) : res bool :=
  match url with
  | None => Ok false
  | Some u0 =>
      let u := strip u0 in
      if negb (nonempty u) then Ok false
      else let* a := is_safe_url1_native u in
           if a then is_safe_url1_native (replacec 92%N 47%N u) else Ok false
  end.
