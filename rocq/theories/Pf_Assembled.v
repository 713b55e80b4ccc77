(** Groups put together from words. *)
From Verif Require Import Prim Lib Values Groups1 Groups4 Parser SpecReach SpecAssembled.
From Verif Require Import Pf_Ok Pf_Kinds.

(** Metadata with a report time and nothing else *)
Definition md_at (now : option MetafTime) : ReportMetadata :=
  mkMetadata RT_UNKNOWN RE_NONE now "" false false false false false false false false false
    false false (Some 0%N) false None None.
Lemma assembled_kind : forall part now (P : list string -> Group -> Prop),
  (forall w md g, md_reportTime md = now -> parsed_as g w part md -> P [w] g) ->
  (forall ws w md g g', Assembled part now ws g -> P ws g -> md_reportTime md = now -> appended_as g w part md g' APPENDED -> P (ws ++ [w])%list g') ->
  forall ws g, Assembled part now ws g -> P ws g.
Proof.
  intros part now P F M ws g H; induction H as [w md p g T Hp G|ws w md g g' B IH T A].
  - eapply F; [exact T|exact (parsed_inv _ _ _ _ _ Hp G)].
  - eapply M; [exact B|exact IH|exact T|]. apply appended_inv. exact A.
Qed.
Lemma alternative_of : forall (A : Type) (mk : A -> Group) p s part md a, p s part md = Ok (Some a) -> alternative mk p s part md = Ok (Some (mk a)).
Proof. intros A mk p s part md a H. unfold alternative. rewrite H. reflexivity. Qed.
Lemma assembled_first : forall part now w g, match g with GUnknown _ => False | _ => parsed_as g w part (md_at now) end -> Assembled part now [w] g.
Proof.
  intros part now w g H.
  destruct g; try contradiction; cbn [parsed_as] in H;
    (eapply Assembled_first with (md := md_at now); [reflexivity| |eapply alternative_of; exact H]);
    (unfold alternatives; repeat first [left; reflexivity | right]).
Qed.
Lemma assembled_more : forall part now ws w g g', Assembled part now ws g -> appended_as g w part (md_at now) g' APPENDED -> Assembled part now (ws ++ [w]) g'.
Proof. intros part now ws w g g' H A. eapply Assembled_more; [exact H| |apply appended_iff; exact A]. reflexivity. Qed.
