From Verif Require Import Prim Regex Float Values Weather Groups1 Groups2 Groups3 Groups4 Parser.
From Verif Require Import SpecVisitor.

Lemma visitor_calls_one : forall (T : Type) (v : Visitor T) (g : Group) (part : ReportPart)
  (raw : string), Visitor_calls v g part raw = [method_for v g part raw].
Proof. intros T v g part raw; destruct g; reflexivity. Qed.

Lemma visitor_visit_method : forall (T : Type) (dflt : T) (v : Visitor T) (i : GroupInfo),
  Visitor_visitInfo dflt v i = method_for v (gi_group i) (gi_reportPart i) (gi_rawString i).
Proof.
  intros T dflt v i; unfold Visitor_visitInfo, Visitor_visit; rewrite visitor_calls_one; reflexivity.
Qed.

Lemma visitor_recorder : forall (g : Group) (part : ReportPart) (raw : string),
  Visitor_calls recorder g part raw = [(Group_index g, g, part, raw)].
Proof. intros g part raw; destruct g; reflexivity. Qed.
