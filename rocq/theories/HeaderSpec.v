(** * Independent specification of header parameters (claims C19, C20) *)
From Verif Require Import Py.

(** Cutting a line at the semicolons that stand outside double quotes.
    [inq]: is the number of double quotes seen so far odd? *)
Fixpoint qsplit (inq : bool) (s : str) : list str :=
  match s with
  | [] => [[]]
  | c :: r =>
      if N.eqb c 59 && negb inq then [] :: qsplit inq r
      else match qsplit (if N.eqb c 34 then negb inq else inq) r with
           | p :: ps => (c :: p) :: ps
           | [] => [[c]]
           end
  end.

(** The characters of an HTTP token *)
Definition is_token_char (c : char) : bool := is_alnum c || mem c !"!#$%&*+-.^_`|~".
Definition is_token (s : str) : bool := nonempty s && forallb is_token_char s.

(** how a value is written inside double quotes *)
Definition escape (v : str) : str :=
  flat_map (fun c => if N.eqb c 92 || N.eqb c 34 then [92%N; c] else [c]) v.

(** a parameter as it is written *)
Inductive pval := Tok (v : str) | Quo (v : str).
Definition pval_of (p : pval) : str := match p with Tok v => v | Quo v => v end.
Definition render_val (p : pval) : str :=
  match p with Tok v => v | Quo v => [34%N] ++ escape v ++ [34%N] end.
Definition render_param (p : str * pval) : str := !"; " ++ fst p ++ !"=" ++ render_val (snd p).
Definition render (main : str) (ps : list (str * pval)) : str := main ++ flat_map render_param ps.

(** the value of the last parameter called [n] (names do not depend on case) *)
Definition last_value (n : str) (ps : list (str * pval)) : option str :=
  fold_left (fun acc p => if seqb (lower (fst p)) n then Some (pval_of (snd p)) else acc) ps None.

(** [v] keeps quoting balanced: every ';' has an even number of double quotes
    before it, and so has the end *)
Fixpoint balanced (odd_so_far : bool) (v : str) : bool :=
  match v with
  | [] => negb odd_so_far
  | c :: r => if N.eqb c 34 then balanced (negb odd_so_far) r
              else if N.eqb c 59 then negb odd_so_far && balanced odd_so_far r
              else balanced odd_so_far r
  end.
