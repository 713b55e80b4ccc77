(** Declarative meaning of the regular expressions: the language of an expression, and the ways to
    match a string together with what each way captures. *)
From Verif Require Import Prim Regex.
Local Open Scope string_scope.

(** [Lang r s]: the whole string [s] is in the language of [r]. *)
Inductive Lang : re -> string -> Prop :=
| L_eps : Lang REps ""
| L_cls : forall rs c, in_cls c rs = true -> Lang (RCls rs) (String c "")
| L_seq : forall a b p q, Lang a p -> Lang b q -> Lang (RSeq a b) (p ++ q)
| L_alt1 : forall a b p, Lang a p -> Lang (RAlt a b) p
| L_alt2 : forall a b p, Lang b p -> Lang (RAlt a b) p
| L_opt0 : forall a, Lang (ROpt a) ""
| L_opt1 : forall a p, Lang a p -> Lang (ROpt a) p
| L_star0 : forall a, Lang (RStar a) ""
| L_star1 : forall a p q, Lang a p -> Lang (RStar a) q -> Lang (RStar a) (p ++ q)
| L_grp : forall n a p, Lang a p -> Lang (RGrp n a) p.

(** [Captures r s c]: [s] is matched by [r] capturing [c] (later captures first). *)
Inductive Captures : re -> string -> caps -> Prop :=
| K_eps : Captures REps "" []
| K_cls : forall rs c, in_cls c rs = true -> Captures (RCls rs) (String c "") []
| K_seq : forall a b p q ca cb, Captures a p ca -> Captures b q cb ->
    Captures (RSeq a b) (p ++ q) (cb ++ ca)%list
| K_alt1 : forall a b p c, Captures a p c -> Captures (RAlt a b) p c
| K_alt2 : forall a b p c, Captures b p c -> Captures (RAlt a b) p c
| K_opt0 : forall a, Captures (ROpt a) "" []
| K_opt1 : forall a p c, Captures a p c -> Captures (ROpt a) p c
| K_star0 : forall a, Captures (RStar a) "" []
| K_star1 : forall a p q ca cb, Captures a p ca -> p <> "" -> Captures (RStar a) q cb ->
    Captures (RStar a) (p ++ q) (cb ++ ca)%list
| K_grp : forall n a p c, Captures a p c -> Captures (RGrp n a) p ((n, p) :: c).
