(** C30 and C48: lightning, and phenomena in the vicinity. *)
From Verif Require Import Prim Regex Float Values Weather Groups1 Groups2 Groups3 Groups4 Parser.
From Verif Require Import SpecText SpecDirection SpecNumeral SpecReach SpecAssembled SpecNearby.
From Verif Require Import Pf_Lightning Pf_Vicinity.
Local Open Scope string_scope.

Theorem C30_lightning :
  forall g : LightningGroup, Reachable (GLightning g) ->
    exists l, LightningGroup_directions g = Ok l /\ NoDup l /\ (List.length l <= 9)%nat.
Proof. exact lightning_directions. Qed.
Print Assumptions C30_lightning.
Theorem C30_vicinity :
  forall g : VicinityGroup, Reachable (GVicinity g) ->
    exists l, VicinityGroup_directions g = Ok l /\ NoDup l /\ (List.length l <= 9)%nat.
Proof. exact vicinity_directions. Qed.
Print Assumptions C30_vicinity.

(** Exactly the word sequences of [Lightning_said] make a lightning group that does not wait for
    more words, and the group tells what they say. *)
Theorem C48_lightning :
  forall (part : ReportPart) (now : option MetafTime) (words : list string),
    (forall g, Assembled part now words (GLightning g) -> settled part (GLightning g) ->
      part = RP_RMK /\ exists v, Lightning_said words v /\ tells g v)
    /\ (part = RP_RMK -> forall v, Lightning_said words v ->
         exists g, Assembled part now words (GLightning g) /\ settled part (GLightning g) /\ tells g v).
Proof. exact lightning_words. Qed.
Print Assumptions C48_lightning.
(** A word of frequency alone, before the word LTG follows, tells nothing but the frequency. *)
Theorem C48_frequency_word :
  forall (w : string) (f : LtFreq) (md : ReportMetadata), In (w, f) frequencies ->
    exists g, LightningGroup_parse w RP_RMK md = Ok (Some g) /\ tells g (Strikes f [] Distance_default []).
Proof. exact frequency_word. Qed.
Print Assumptions C48_frequency_word.
Theorem C48_vicinity :
  forall (part : ReportPart) (now : option MetafTime) (words : list string),
    (forall g, Assembled part now words (GVicinity g) -> settled part (GVicinity g) ->
      part = RP_RMK /\ exists v, Vicinity_said words v /\ shows g v)
    /\ (part = RP_RMK -> forall v, Vicinity_said words v ->
         exists g, Assembled part now words (GVicinity g) /\ settled part (GVicinity g) /\ shows g v).
Proof. exact vicinity_words. Qed.
Print Assumptions C48_vicinity.
Theorem C48_lightning_report :
  forall (char_signed : bool) (report : string) (limit : nat) (r : ParseResult),
    parse char_signed report limit = Ok r ->
    forall (g : LightningGroup) (part : ReportPart) (raw : string),
      In (mkGroupInfo (GLightning g) part raw) (pr_groups r) -> raw <> "" ->
      part = RP_RMK /\ exists v, Lightning_said (words_of raw) v /\ tells g v.
Proof. exact result_lightning. Qed.
Print Assumptions C48_lightning_report.
Theorem C48_vicinity_report :
  forall (char_signed : bool) (report : string) (limit : nat) (r : ParseResult),
    parse char_signed report limit = Ok r ->
    forall (g : VicinityGroup) (part : ReportPart) (raw : string),
      In (mkGroupInfo (GVicinity g) part raw) (pr_groups r) -> raw <> "" ->
      part = RP_RMK /\ exists v, Vicinity_said (words_of raw) v /\ shows g v.
Proof. exact result_vicinity. Qed.
Print Assumptions C48_vicinity_report.

Example C48_nonvacuous : exists r g h,
  parse true "METAR KJFK 280551Z 24010KT 10SM CLR 12/03 A3000 RMK FRQ LTGICCG DSNT NW-N AND E CB DSNT S MOV NE=" 100 = Ok r
  /\ In (mkGroupInfo (GLightning g) RP_RMK "FRQ LTGICCG DSNT NW-N AND E") (pr_groups r)
  /\ In (mkGroupInfo (GVicinity h) RP_RMK "CB DSNT S MOV NE") (pr_groups r)
  /\ LightningGroup_directions g = Ok (map (fun n => mkDir n DT_VALUE_CARDINAL) [315; 360; 90]%N)
  /\ lt_inCloud g = true /\ lt_cloudAir g = false /\ lt_freq g = Lt_FREQUENT
  /\ VicinityGroup_directions h = Ok [mkDir 180 DT_VALUE_CARDINAL] /\ vc_movDir h = mkDir 45 DT_VALUE_CARDINAL.
Proof.
  eexists.
  exists (mkLightning Lt_FREQUENT Distance_makeDistant true true false false false
    (Some (mkDir 315 DT_VALUE_CARDINAL)) (Some (mkDir 360 DT_VALUE_CARDINAL)) (Some (mkDir 90 DT_VALUE_CARDINAL)) None false).
  exists (mkVicinity Vc_CUMULONIMBUS Distance_makeDistant (Some (mkDir 180 DT_VALUE_CARDINAL)) None None None
    (mkDir 45 DT_VALUE_CARDINAL) VcI_NONE).
  split; [vm_compute; reflexivity|]. split; [cbn; repeat (try (left; reflexivity); right)|].
  split; [cbn; repeat (try (left; reflexivity); right)|]. repeat split; vm_compute; reflexivity.
Qed.
Example C48_said : exists v, Lightning_said ["FRQ"; "LTGICCG"; "DSNT"; "NW-N"; "AND"; "E"] v
  /\ strikes_types v = ["IC"; "CG"] /\ strikes_dirs v = map (fun n => mkDir n DT_VALUE_CARDINAL) [315; 360; 90]%N.
Proof.
  exists (Strikes Lt_FREQUENT ["IC"; "CG"] Distance_makeDistant (map (fun n => mkDir n DT_VALUE_CARDINAL) [315; 360; 90]%N)).
  split; [|split; reflexivity].
  refine (Lightning_words ["FRQ"] Lt_FREQUENT "ICCG" ["DSNT"] _ ["NW-N"] (map towards (clockwise 7 0)) ["AND"] ["E"] (map towards [octant 2]) _ _ _ _ _ _ _ _ _).
  - right. eexists. split; [reflexivity|]. cbn. auto.
  - apply (How_far_said [] Distance_default); [constructor|cbn; auto].
  - apply Bearing_given. apply (Bearing_sector "NW" "" "N" 7 0); cbn; auto 20; constructor.
  - intros w [<-|[]]. reflexivity.
  - right. discriminate.
  - apply Bearing_given, Bearing_octant. cbn. auto 20.
  - right. discriminate.
  - exists (map towards [octant 2]). split; [|reflexivity]. apply Without_new; [|constructor]. cbn. intros [X|[X|[]]]; discriminate X.
Qed.
