(** C++ primitives used by the model: outcomes, strings, unsigned integers.

    Nothing here is a property; these are the semantics of the C++ operations
    used by /repo/include/metaf.hpp, with every partial operation returning a
    distinct "bad" outcome. *)

From Coq Require Export String Ascii List NArith ZArith Bool Arith.
Export ListNotations.
Local Open Scope string_scope.

(** What can go wrong when a C++ function runs. *)
Inductive err : Type :=
| UB      (* undefined behaviour: out-of-bounds access, empty optional dereferenced, ... *)
| Throw   (* an exception, e.g. std::out_of_range from std::string::substr *)
| Fuel.   (* a loop that has not finished within the bound given to it *)

Inductive res (A : Type) : Type :=
| Ok (a : A)
| Bad (e : err).
Arguments Ok {A} a.
Arguments Bad {A} e.

Definition bind {A B : Type} (m : res A) (k : A -> res B) : res B :=
  match m with
  | Ok a => k a
  | Bad e => Bad e
  end.

Declare Scope res_scope.
Delimit Scope res_scope with res.
Notation "'let!' x := e 'in' k" := (bind e (fun x => k))
  (at level 200, x name, e at level 100, k at level 200, right associativity) : res_scope.
Notation "'let!' ' p := e 'in' k" := (bind e (fun x => match x with p => k end))
  (at level 200, p strict pattern, e at level 100, k at level 200, right associativity) : res_scope.
(** [const auto x = e; if (!x.has_value()) return error;] *)
Notation "'let?' x := e 'in' k" :=
  (bind e (fun o => match o with Some x => k | None => Ok None end))
  (at level 200, x name, e at level 100, k at level 200, right associativity) : res_scope.
Open Scope res_scope.

(** [*o] for std::optional o: undefined behaviour when empty. *)
Definition deref {A : Type} (o : option A) : res A :=
  match o with Some a => Ok a | None => Bad UB end.

Definition has_value {A : Type} (o : option A) : bool :=
  match o with Some _ => true | None => false end.

(** ** Strings (std::string, a sequence of bytes) *)

Definition slen (s : string) : nat := String.length s.
Definition sempty (s : string) : bool := match s with EmptyString => true | _ => false end.
Definition seqb (a b : string) : bool := String.eqb a b.

Definition chr0 : ascii := "000"%char.

(** [s[i]] on a const std::string: index = length gives the NUL terminator,
    anything beyond is undefined behaviour. *)
Definition sget (s : string) (i : nat) : res ascii :=
  match String.get i s with
  | Some c => Ok c
  | None => if Nat.eqb i (slen s) then Ok chr0 else Bad UB
  end.

(** [s.substr(pos, n)]: throws std::out_of_range when pos > size. *)
Definition substr (s : string) (pos n : nat) : res string :=
  if Nat.leb pos (slen s) then Ok (substring pos n s) else Bad Throw.

(** [s.substr(pos)] *)
Definition substr_from (s : string) (pos : nat) : res string :=
  substr s pos (slen s).

(** [s.find(c, pos)]; None is std::string::npos. *)
Fixpoint sfind0 (c : ascii) (s : string) (i : nat) : option nat :=
  match s with
  | EmptyString => None
  | String d s' => if Ascii.eqb c d then Some i else sfind0 c s' (S i)
  end.
Fixpoint sdrop (n : nat) (s : string) : string :=
  match n, s with
  | O, _ => s
  | S n', String _ s' => sdrop n' s'
  | S _, EmptyString => EmptyString
  end.
Definition sfind (c : ascii) (s : string) (pos : nat) : option nat :=
  sfind0 c (sdrop pos s) pos.

Definition code (c : ascii) : N := N_of_ascii c.

(** ** unsigned int (32 bit) *)
Definition two32 : N := 4294967296%N.
Definition u32 (x : N) : N := N.modulo x two32.

(** Conversion unsigned int -> int (modulo 2^32, two's complement). *)
Definition i32_of_u32 (x : N) : Z :=
  if N.ltb x 2147483648%N then Z.of_N x else (Z.of_N x - 4294967296)%Z.
(** Unary minus on unsigned int. *)
Definition u32_neg (x : N) : N := u32 (two32 - u32 x)%N.

(** ** strToUint and fractionStrToUint *)

Definition is_digit (c : ascii) : bool :=
  (N.leb 48 (code c) && N.leb (code c) 57)%N.

(** metaf.hpp 2521-2526: the digit loop; [*c] is read through c_str()+startPos. The
    comparisons give the same answer for signed and unsigned char. *)
Fixpoint strToUint_loop (s : string) (p : nat) (digits : nat) (value : N) : res (option N) :=
  match digits with
  | O => Ok (Some value)
  | S k =>
    let! c := sget s p in
    if is_digit c
    then strToUint_loop s (S p) k (u32 (value * 10 + (code c - 48)))
    else Ok None
  end.

(** metaf.hpp 2514-2527 *)
Definition strToUint (s : string) (startPos digits : nat) : res (option N) :=
  if sempty s || Nat.eqb digits 0 || Nat.ltb (slen s) (startPos + digits)
  then Ok None
  else strToUint_loop s startPos digits 0%N.

(** metaf.hpp 2529-2555. int arithmetic is modelled in Z (string lengths below 2^31). *)
Definition fractionStrToUint (s : string) (startPos : nat) (length : nat) : res (option (N * N)) :=
  let len := if Nat.ltb (slen s) (length + startPos)
             then (Z.of_nat (slen s) - Z.of_nat startPos)%Z
             else Z.of_nat length in
  let endPos := (Z.of_nat startPos + len)%Z in
  match sfind "/"%char s startPos with
  | None => Ok None
  | Some slashPos =>
    let numeratorLength := (Z.of_nat slashPos - Z.of_nat startPos)%Z in
    if (numeratorLength <? 1)%Z || (2 <? numeratorLength)%Z then Ok None else
    let denominatorPos := (Z.of_nat slashPos + 1)%Z in
    let denominatorLength := (endPos - denominatorPos)%Z in
    if (denominatorLength <? 1)%Z || (2 <? denominatorLength)%Z then Ok None else
    let! numerator := strToUint s startPos (Z.to_nat numeratorLength) in
    let! denominator := strToUint s (Z.to_nat denominatorPos) (Z.to_nat denominatorLength) in
    match numerator, denominator with
    | Some n, Some d => Ok (Some (n, d))
    | _, _ => Ok None
    end
  end.

(** [std::stoi] on the strings it is applied to in the model (one or more decimal digits,
    no sign or blanks); anything else is std::invalid_argument / out_of_range = Throw. Used on
    regex captures of at most 4 digits. *)
Fixpoint all_digits (s : string) : bool :=
  match s with
  | EmptyString => true
  | String c s' => is_digit c && all_digits s'
  end.
Fixpoint dec_value (s : string) (acc : N) : N :=
  match s with
  | EmptyString => acc
  | String c s' => dec_value s' (acc * 10 + (code c - 48))%N
  end.
Definition stoi (s : string) : res N :=
  if sempty s || negb (all_digits s) then Bad Throw
  else let v := dec_value s 0%N in
       if N.ltb v 2147483648%N then Ok v else Bad Throw.
