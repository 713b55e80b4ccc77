(** ECMAScript-subset regular expressions as used through std::regex:
    a parser for the literals appearing in metaf.hpp and a backtracking
    matcher with captures (greedy quantifiers, ordered alternatives). *)

From Verif Require Import Prim.
Local Open Scope string_scope.

Inductive re : Type :=
| REps                                   (* empty regex *)
| RCls (rs : list (ascii * ascii))       (* one character in one of the ranges *)
| RSeq (a b : re)
| RAlt (a b : re)
| ROpt (a : re)                          (* a?  (greedy) *)
| RStar (a : re)                         (* a*  (greedy) *)
| RGrp (n : nat) (a : re).               (* capture group number n *)

Definition in_range (c : ascii) (r : ascii * ascii) : bool :=
  (N.leb (code (fst r)) (code c) && N.leb (code c) (code (snd r)))%N.
Definition in_cls (c : ascii) (rs : list (ascii * ascii)) : bool :=
  existsb (in_range c) rs.

(** ** Matcher *)

Definition caps := list (nat * string).

(** Longest-first / first-alternative-first list of all ways to match a prefix of s: remaining
    text and captures. This is the order in which an ECMAScript backtracking engine tries them. *)
Fixpoint run (r : re) (s : string) (c : caps) : list (string * caps) :=
  match r with
  | REps => [(s, c)]
  | RCls rs =>
    match s with
    | EmptyString => []
    | String x s' => if in_cls x rs then [(s', c)] else []
    end
  | RSeq a b => flat_map (fun sc => run b (fst sc) (snd sc)) (run a s c)
  | RAlt a b => run a s c ++ run b s c
  | ROpt a => run a s c ++ [(s, c)]
  | RStar a =>
    (fix go (n : nat) (s : string) (c : caps) : list (string * caps) :=
       match n with
       | O => [(s, c)]
       | S n' =>
         flat_map (fun sc => if Nat.ltb (slen (fst sc)) (slen s)
                             then go n' (fst sc) (snd sc) else [])
                  (run a s c)
         ++ [(s, c)]
       end) (slen s) s c
  | RGrp n a =>
    map (fun sc => (fst sc, (n, substring 0 (slen s - slen (fst sc)) s) :: snd sc)) (run a s c)
  end%list.

(** std::regex_match: the first way to match the whole text. *)
Definition regex_match (r : re) (s : string) : option caps :=
  match find (fun sc => sempty (fst sc)) (run r s []) with
  | Some sc => Some (snd sc)
  | None => None
  end.

Definition is_match (r : re) (s : string) : bool := has_value (regex_match r s).

(** match.str(n): empty string when the group did not participate. *)
Definition mstr (c : caps) (n : nat) : string :=
  match find (fun p => Nat.eqb (fst p) n) c with
  | Some p => snd p
  | None => ""
  end.
(** match.length(n) *)
Definition mlen (c : caps) (n : nat) : nat := slen (mstr c n).

(** std::sregex_iterator: successive leftmost (first priority) matches of r, as matched text.
    Only used with a regex that cannot match the empty string. *)
Fixpoint search_from (fuel : nat) (r : re) (s : string) : list string :=
  match fuel with
  | O => []
  | S k =>
    match run r s [] with
    | sc :: _ => substring 0 (slen s - slen (fst sc)) s :: search_from k r (fst sc)
    | [] => match s with
            | EmptyString => []
            | String _ s' => search_from k r s'
            end
    end
  end.
Definition regex_search_all (r : re) (s : string) : list string :=
  search_from (S (slen s)) r s.

(** ** Parser for regex literals *)

Definition chr_lit (c : ascii) : re := RCls [(c, c)].
Definition digit_range : ascii * ascii := ("0"%char, "9"%char).

(** Character class body up to the closing bracket. *)
Fixpoint parse_cls (s : string) : option (list (ascii * ascii) * string) :=
  match s with
  | EmptyString => None
  | String "]" s' => Some ([], s')
  | String "\" (String "d" s') =>
    match parse_cls s' with
    | Some (rs, t) => Some (digit_range :: rs, t)
    | None => None
    end
  | String a (String "-" (String b s')) =>
    match parse_cls s' with
    | Some (rs, t) => Some ((a, b) :: rs, t)
    | None => None
    end
  | String a s' =>
    match parse_cls s' with
    | Some (rs, t) => Some ((a, a) :: rs, t)
    | None => None
    end
  end.

Fixpoint rep_exact (n : nat) (r : re) : re :=
  match n with
  | O => REps
  | 1 => r
  | S n' => RSeq r (rep_exact n' r)
  end.
(** r{0,n}, greedy *)
Fixpoint rep_upto (n : nat) (r : re) : re :=
  match n with
  | O => REps
  | 1 => ROpt r
  | S n' => ROpt (RSeq r (rep_upto n' r))
  end.

Definition digit_nat (c : ascii) : option nat :=
  if is_digit c then Some (N.to_nat (code c - 48)) else None.

(** Optional quantifier following atom r. Only the forms ? * + {m} {m,n} with one digit bounds. *)
Definition parse_quant (r : re) (s : string) : option (re * string) :=
  match s with
  | String "?" t => Some (ROpt r, t)
  | String "*" t => Some (RStar r, t)
  | String "+" t => Some (RSeq r (RStar r), t)
  | String "{" (String a (String "}" t)) =>
    match digit_nat a with
    | Some n => Some (rep_exact n r, t)
    | None => None
    end
  | String "{" (String a (String "," (String b (String "}" t)))) =>
    match digit_nat a, digit_nat b with
    | Some m, Some n =>
      if Nat.ltb n m then None else
      match m with
      | O => Some (rep_upto n r, t)
      | _ => if Nat.eqb m n then Some (rep_exact m r, t)
             else Some (RSeq (rep_exact m r) (rep_upto (n - m) r), t)
      end
    | _, _ => None
    end
  | String "{" _ => None
  | _ => Some (r, s)
  end.

Definition seq_re (a b : re) : re :=
  match a with REps => b | _ => match b with REps => a | _ => RSeq a b end end.

(** Recursive descent; g is the next capture group number. *)
Fixpoint parse_alt (fuel : nat) (g : nat) (s : string) : option (re * nat * string) :=
  match fuel with
  | O => None
  | S k =>
    match parse_seq k g s with
    | Some (a, g1, String "|" t) =>
      match parse_alt k g1 t with
      | Some (b, g2, u) => Some (RAlt a b, g2, u)
      | None => None
      end
    | other => other
    end
  end
with parse_seq (fuel : nat) (g : nat) (s : string) : option (re * nat * string) :=
  match fuel with
  | O => None
  | S k =>
    match s with
    | EmptyString => Some (REps, g, s)
    | String ")" _ => Some (REps, g, s)
    | String "|" _ => Some (REps, g, s)
    | _ =>
      match parse_atom k g s with
      | Some (a, g1, t) =>
        match parse_quant a t with
        | Some (q, u) =>
          match parse_seq k g1 u with
          | Some (b, g2, v) => Some (seq_re q b, g2, v)
          | None => None
          end
        | None => None
        end
      | None => None
      end
    end
  end
with parse_atom (fuel : nat) (g : nat) (s : string) : option (re * nat * string) :=
  match fuel with
  | O => None
  | S k =>
    match s with
    | String "(" (String "?" (String ":" t)) =>
      match parse_alt k g t with
      | Some (a, g1, String ")" u) => Some (a, g1, u)
      | _ => None
      end
    | String "(" t =>
      match parse_alt k (S g) t with
      | Some (a, g1, String ")" u) => Some (RGrp g a, g1, u)
      | _ => None
      end
    | String "[" t =>
      match parse_cls t with
      | Some (rs, u) => Some (RCls rs, g, u)
      | None => None
      end
    | String "\" (String "d" t) => Some (RCls [digit_range], g, t)
    | String "\" (String c t) => Some (chr_lit c, g, t)
    | String c t => Some (chr_lit c, g, t)
    | EmptyString => None
    end
  end.

Definition parse_re (s : string) : option re :=
  match parse_alt (4 + 4 * slen s) 1 s with
  | Some (r, _, EmptyString) => Some r
  | _ => None
  end.

(** The regex denoted by a literal; a malformed literal would denote the regex matching
    nothing (Regex literals are checked to be well formed in ModelCheck.v). *)
Definition rx (s : string) : re :=
  match parse_re s with Some r => r | None => RCls [] end.
