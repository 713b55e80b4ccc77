(** The page of the program examples/explain.cpp: examples/shellfiles/explain_shell.html. Definitions only.

    A string of JavaScript is the list of its code units of 16 bits. What the page uses of the browser is modelled as far as it
    is used: the text in the box, the fragment of the address, the table. *)
From Coq Require Import List String Ascii NArith Bool.
From Verif Require Import Prim Float Explain.
Import ListNotations.
Local Open Scope N_scope.

Definition jstring : Type := list N.
(** A literal *)
Definition js (s : string) : jstring := map N_of_ascii (list_ascii_of_string s).

(* ------------------------------------------------------------------ *)
(** ** encodeURIComponent and decodeURIComponent (ECMA-262) *)

(** Letters, digits and - _ . ! ~ * ' ( ) *)
Definition unescaped (c : N) : bool :=
  (65 <=? c) && (c <=? 90) || (97 <=? c) && (c <=? 122) || (48 <=? c) && (c <=? 57)
  || existsb (N.eqb c) [45; 95; 46; 33; 126; 42; 39; 40; 41].
Definition is_high (c : N) : bool := (55296 <=? c) && (c <=? 56319).
Definition is_low (c : N) : bool := (56320 <=? c) && (c <=? 57343).
Definition pair_value (h l : N) : N := 65536 + (h - 55296) * 1024 + (l - 56320).
(** The octets of a code point *)
Definition utf8 (v : N) : list N :=
  if v <? 128 then [v]
  else if v <? 2048 then [192 + v / 64; 128 + v mod 64]
  else if v <? 65536 then [224 + v / 4096; 128 + (v / 64) mod 64; 128 + v mod 64]
  else [240 + v / 262144; 128 + (v / 4096) mod 64; 128 + (v / 64) mod 64; 128 + v mod 64].
Definition hex_digit (n : N) : N := if n <? 10 then 48 + n else 55 + n.
Definition percent (b : N) : jstring := [37; hex_digit (b / 16); hex_digit (b mod 16)].
(** [None] is the exception URIError *)
Fixpoint encodeURIComponent (s : jstring) : option jstring :=
  match s with
  | [] => Some []
  | c :: r =>
    if unescaped c then option_map (cons c) (encodeURIComponent r)
    else if is_low c then None
    else if is_high c then
      match r with
      | d :: r' =>
        if is_low d then option_map (app (flat_map percent (utf8 (pair_value c d)))) (encodeURIComponent r') else None
      | [] => None
      end
    else option_map (app (flat_map percent (utf8 c))) (encodeURIComponent r)
  end.

Definition hex_value (c : N) : option N :=
  if (48 <=? c) && (c <=? 57) then Some (c - 48)
  else if (65 <=? c) && (c <=? 70) then Some (c - 55)
  else if (97 <=? c) && (c <=? 102) then Some (c - 87)
  else None.
(** One octet written with a percent sign, and what follows *)
Definition take_octet (s : jstring) : option (N * jstring) :=
  match s with
  | p :: a :: b :: r =>
    if p =? 37 then
      match hex_value a, hex_value b with
      | Some x, Some y => Some (16 * x + y, r)
      | _, _ => None
      end
    else None
  | _ => None
  end.
(** [n] more octets, each of which begins with the bits 10, behind the value [v] *)
Fixpoint take_more (n : nat) (v : N) (s : jstring) : option (N * jstring) :=
  match n with
  | O => Some (v, s)
  | S n' =>
    match take_octet s with
    | Some (b, r) => if (128 <=? b) && (b <=? 191) then take_more n' (v * 64 + (b - 128)) r else None
    | None => None
    end
  end.
(** The code units of a code point *)
Definition utf16 (v : N) : jstring :=
  if v <? 65536 then [v] else [55296 + (v - 65536) / 1024; 56320 + (v - 65536) mod 1024].
Definition is_scalar (v : N) : bool := (v <? 55296) || (57343 <? v) && (v <? 1114112).
(** A code point: the octet [b] and those behind it. The shortest form is required. *)
Definition take_character (b : N) (s : jstring) : option (N * jstring) :=
  if b <? 128 then Some (b, s)
  else if b <? 192 then None
  else
    let more := if b <? 224 then Some (1%nat, b - 192, 128)
                else if b <? 240 then Some (2%nat, b - 224, 2048)
                else if b <? 248 then Some (3%nat, b - 240, 65536)
                else None in
    match more with
    | None => None
    | Some (n, v, least) =>
      match take_more n v s with
      | Some (v, r) => if (least <=? v) && is_scalar v then Some (v, r) else None
      | None => None
      end
    end.
Fixpoint decode_loop (fuel : nat) (s : jstring) : option jstring :=
  match fuel with
  | O => None
  | S fuel' =>
    match s with
    | [] => Some []
    | c :: r =>
      if c =? 37 then
        match take_octet s with
        | None => None
        | Some (b, r) =>
          match take_character b r with
          | None => None
          | Some (v, r) => option_map (app (utf16 v)) (decode_loop fuel' r)
          end
        end
      else option_map (cons c) (decode_loop fuel' r)
    end
  end.
Definition decodeURIComponent (s : jstring) : option jstring := decode_loop (S (List.length s)) s.

(* ------------------------------------------------------------------ *)
(** ** The page *)

(** The text in the box (explain_shell.html:93), the fragment of the address without the leading number sign, and the table
    (97-103), which is empty or what the program explain has returned, in bytes; how the browser renders these is not modelled. *)
Record PageState := mkPageState { box : jstring; fragment : jstring; shown : option string }.

(** The value of a textarea: the ends of lines are single line feeds (HTML, "API value"). *)
Fixpoint box_value (s : jstring) : jstring :=
  match s with
  | [] => []
  | c :: r =>
    if c =? 13 then match r with d :: r' => if d =? 10 then 10 :: box_value r' else 10 :: box_value r | [] => [10] end
    else c :: box_value r
  end.
(** Module.ccall (explain_shell.html:59-62) passes the string as UTF-8, ended by a zero. It is called for strings only for which
    encodeURIComponent (57) returns; for these the two units of a pair stand together. *)
Fixpoint to_utf8 (s : jstring) : list N :=
  match s with
  | [] => []
  | c :: r =>
    if is_high c then match r with d :: r' => utf8 (pair_value c d) ++ to_utf8 r' | [] => [] end
    else utf8 c ++ to_utf8 r
  end%list.
(** std::string of a const char* (explain.cpp:3103) *)
Fixpoint c_string (bytes : list N) : string :=
  match bytes with
  | [] => EmptyString
  | b :: r => if b =? 0 then EmptyString else String (ascii_of_N b) (c_string r)
  end.
(** explain_shell.html:54-66 with clearTable (48-52); freeMemory (63; explain.cpp:3097-3099) has no other effect than to free the result, which has
    been copied. If encodeURIComponent throws, the table has been cleared, and nothing else is done. The fragment is set to a
    result of encodeURIComponent, of which the parser for addresses changes no character. [Bad]: the call of the program explain
    does not return. *)
Definition page_explain (pow : flt -> flt -> flt) (sgn : bool) (st : PageState) : res PageState :=
  match encodeURIComponent (box st) with
  | None => Ok (mkPageState (box st) (fragment st) None)
  | Some f =>
    let! t := explain pow sgn (c_string (to_utf8 (box st))) in
    Ok (mkPageState (box st) f (Some t))
  end.
(** explain_shell.html:69 *)
Definition sampleReportStr : jstring := js
  "TAF UKLL 241107Z 2412/2512 35007G13MPS 4000 BR OVC005 TXM00/2412Z TNM05/2504Z TEMPO 2412/2418 33009G14MPS 1100 -SHSN BKN003 BKN020CB TEMPO 2418/2506 32009G14MPS 0400 +SHSN BKN002 BKN015CB TEMPO 2506/2512 29008G14MPS 2100 -SHSN BKN006 BKN025CB=".
(** explain_shell.html:68-78; window.location.hash is the empty string if the fragment is empty *)
Definition getInputFromHash (st : PageState) : PageState :=
  match fragment st with
  | [] =>
    match encodeURIComponent sampleReportStr with
    | Some f => mkPageState (box_value sampleReportStr) f (shown st)
    | None => mkPageState (box_value sampleReportStr) [] (shown st)
    end
  | f =>
    match decodeURIComponent f with
    | Some report => mkPageState (box_value report) f (shown st)
    | None => st
    end
  end.

(** What happens to the page: it is loaded (explain_shell.html:83), the program starts (explain.cpp:3147-3151), the text is
    edited (explain_shell.html:93) *)
Inductive Event := Loaded | Started | Edited (text : jstring).
Definition on_event (pow : flt -> flt -> flt) (sgn : bool) (e : Event) (st : PageState) : res PageState :=
  match e with
  | Loaded => Ok (getInputFromHash st)
  | Started => page_explain pow sgn st
  | Edited text => page_explain pow sgn (mkPageState (box_value text) (fragment st) (shown st))
  end.
Fixpoint on_events (pow : flt -> flt -> flt) (sgn : bool) (es : list Event) (st : PageState) : res PageState :=
  match es with
  | [] => Ok st
  | e :: r => let! st' := on_event pow sgn e st in on_events pow sgn r st'
  end.
(** The page at an address with this fragment, before anything happens; the browser has not filled in the box from an earlier
    visit. *)
Definition new_page (f : jstring) : PageState := mkPageState [] f None.
