(** The value parsers read what the texts say. *)
From Verif Require Import Prim Lib Regex Float Values SpecNumeral SpecDirection SpecTexts.
From Verif Require Import Pf_Ok Pf_Values1 Pf_Values2 Pf_Values5.
Local Open Scope string_scope.

Lemma meters_text : forall s d, Distance_fromMeterString s = Ok (Some d) <-> Meters s d.
Proof. exact meter_parse. Qed.
Lemma height_text : forall s d, Distance_fromHeightString s = Ok (Some d) <-> Height s d.
Proof. exact height_parse. Qed.
Lemma rvr_text : forall s feet d, Distance_fromRvrString s feet = Ok (Some d) <-> Visual_range feet s d.
Proof. exact rvr_parse. Qed.
Lemma layer_text : forall s b t, Distance_fromLayerString s = Ok (Some (b, t)) <-> Layer s b t.
Proof.
  intros s b t. rewrite layer_parse. unfold Layer. split.
  - intros (h & r & x & y & E & H & T & X). injection X as -> ->. exists h, r, x, y. auto.
  - intros (h & r & x & y & E & H & T & -> & ->). exists h, r, x, y. auto.
Qed.
Lemma km_text : forall s d, Distance_fromKmString s = Ok (Some d) <-> Kilometers s d.
Proof. exact km_parse. Qed.
Lemma speed_text : forall s u t, Speed_fromString s u = Ok (Some t) <-> Speed_text u s t.
Proof. exact speed_parse. Qed.
Lemma speed_unit_text : forall s u, Speed_unitFromString s = Some u <-> In (s, u) speed_units.
Proof.
  intros s u. unfold Speed_unitFromString, speed_units. cbn [In]. split.
  - destruct (seqb s "KT") eqn:A; [apply seqb_eq in A; intros H; injection H as <-; subst; auto|].
    destruct (seqb s "MPS") eqn:B; [apply seqb_eq in B; intros H; injection H as <-; subst; auto|].
    destruct (seqb s "KMH") eqn:C; [apply seqb_eq in C; intros H; injection H as <-; subst; auto|discriminate].
  - intros [H|[H|[H|[]]]]; injection H as <- <-; reflexivity.
Qed.
Lemma runway_text : forall s rwy r, Runway_fromString s rwy = Ok (Some r) <-> Runway_text rwy s r.
Proof. exact runway_parse. Qed.
Lemma degrees_text : forall s d, Direction_fromDegreesString s = Ok (Some d) <-> Degrees s d.
Proof. exact degrees_parse. Qed.
