(** Specification for C30 and C48: where lightning and phenomena in the vicinity are, and what the
    words of lightning and vicinity groups say. *)
From Coq Require Import NArith List String.
From Verif Require Import Prim Values Groups1 Groups3 Groups4 SpecDirection SpecNumeral.
Import ListNotations.
Local Open Scope string_scope.
Local Open Scope N_scope.

(** The direction of an octant *)
Definition towards (o : Cardinal * N) : Direction := mkDir (snd o) DT_VALUE_CARDINAL.
Definition other_names : list (string * DirType) := [("NDV", DT_NDV); ("OHD", DT_OVERHEAD); ("ALQDS", DT_ALQDS)].
(** Directions between the ends of a sector, which are not looked at further *)
Inductive Between : string -> Prop :=
| Between_none : Between ""
| Between_more : forall x m, In x ["N"; "S"; "W"; "E"; "NW"; "NE"; "SW"; "SE"] -> Between m -> Between ("-" ++ x ++ m).
(** [Bearing w l]: the word [w] names the directions [l], a single one or a sector clockwise from
    its first to its last direction *)
Inductive Bearing : string -> list Direction -> Prop :=
| Bearing_octant : forall w o, In (w, o) octant_names -> Bearing w [towards o]
| Bearing_other : forall w t, In (w, t) other_names -> Bearing w [mkDir 0 t]
| Bearing_sector : forall v m w i j, (i < 8)%nat -> (j < 8)%nat ->
    In (v, octant i) octant_names -> Between m -> In (w, octant j) octant_names ->
    Bearing (v ++ m ++ "-" ++ w) (map towards (clockwise i j)).
(** An optional word for a bearing *)
Inductive Bearing_opt : list string -> list Direction -> Prop :=
| Bearing_omitted : Bearing_opt [] []
| Bearing_given : forall w l, Bearing w l -> Bearing_opt [w] l.
(** The second list without the directions of the first *)
Inductive Without (l1 : list Direction) : list Direction -> list Direction -> Prop :=
| Without_end : Without l1 [] []
| Without_known : forall d l l', In d l1 -> Without l1 l l' -> Without l1 (d :: l) l'
| Without_new : forall d l l', ~ In d l1 -> Without l1 l l' -> Without l1 (d :: l) (d :: l').
(** The directions of the first list, then those of the second that are not in it *)
Definition Together (l1 l2 l : list Direction) : Prop := exists l3, Without l1 l2 l3 /\ l = (l1 ++ l3)%list.

(** ** Lightning *)
(** Pieces of two characters *)
Fixpoint pieces (s : string) : list string :=
  match s with
  | String a (String b t) => String a (String b "") :: pieces t
  | "" => []
  | _ => [s]
  end.
Definition frequencies : list (string * LtFreq) :=
  [("OCNL", Lt_OCCASIONAL); ("FRQ", Lt_FREQUENT); ("CONS", Lt_CONSTANT)].
Definition far_or_near : list (string * Distance) :=
  [("DSNT", Distance_makeDistant); ("VC", Distance_makeVicinity)].
(** Any number of words DSNT and VC; the last one counts. *)
Inductive How_far : list string -> Distance -> Prop :=
| How_far_omitted : How_far [] Distance_default
| How_far_said : forall ws d0 w d, How_far ws d0 -> In (w, d) far_or_near -> How_far (ws ++ [w]) d.
Record lightning := Strikes
  { strikes_freq : LtFreq; strikes_types : list string; strikes_dist : Distance;
    strikes_dirs : list Direction }.
Definition known_types : list string := ["IC"; "CC"; "CG"; "CA"].
(** The group tells these types of lightning. *)
Definition tells_types (g : LightningGroup) (types : list string) : Prop :=
  (lt_inCloud g = true <-> In "IC" types) /\ (lt_cloudCloud g = true <-> In "CC" types)
  /\ (lt_cloudGround g = true <-> In "CG" types) /\ (lt_cloudAir g = true <-> In "CA" types)
  /\ (lt_unknown g = true <-> exists t, In t types /\ ~ In t known_types).
Definition tells (g : LightningGroup) (v : lightning) : Prop :=
  lt_freq g = strikes_freq v /\ tells_types g (strikes_types v) /\ lt_dist g = strikes_dist v
  /\ LightningGroup_directions g = Ok (strikes_dirs v).
Inductive Lightning_said : list string -> lightning -> Prop :=
| Lightning_words : forall fw f types dw d b1 l1 ands b2 l2 l,
    fw = [] /\ f = Lt_NONE \/ (exists w, fw = [w] /\ In (w, f) frequencies) ->
    How_far dw d -> Bearing_opt b1 l1 -> (forall w, In w ands -> w = "AND") -> (ands = [] \/ b1 <> []) ->
    Bearing_opt b2 l2 -> (b2 = [] \/ b1 <> []) -> Together l1 l2 l ->
    Lightning_said (fw ++ ["LTG" ++ types] ++ dw ++ b1 ++ ands ++ b2)
      (Strikes f (firstn 6 (pieces types)) d l).

(** ** Vicinity *)
Definition phenomena_near : list (string * VcType) :=
  [("TS", Vc_THUNDERSTORM); ("CB", Vc_CUMULONIMBUS); ("CBMAM", Vc_CUMULONIMBUS_MAMMATUS);
   ("TCU", Vc_TOWERING_CUMULUS); ("ACC", Vc_ALTOCUMULUS_CASTELLANUS);
   ("SCSL", Vc_STRATOCUMULUS_STANDING_LENTICULAR); ("ACSL", Vc_ALTOCUMULUS_STANDING_LENTICULAR);
   ("CCSL", Vc_CIRROCUMULUS_STANDING_LENTICULAR); ("VIRGA", Vc_VIRGA); ("VCSH", Vc_PRECIPITATION_IN_VICINITY);
   ("FOG", Vc_FOG); ("FG", Vc_FOG); ("MIFG", Vc_FOG_SHALLOW); ("BCFG", Vc_FOG_PATCHES);
   ("HAZE", Vc_HAZE); ("HZ", Vc_HAZE); ("SMOKE", Vc_SMOKE); ("FU", Vc_SMOKE);
   ("BLSN", Vc_BLOWING_SNOW); ("BLSA", Vc_BLOWING_SAND); ("BLDU", Vc_BLOWING_DUST)].
Definition Phenomenon_near (ws : list string) (t : VcType) : Prop :=
  (exists w, ws = [w] /\ In (w, t) phenomena_near) \/ ws = ["ROTOR"; "CLD"] /\ t = Vc_ROTOR_CLOUD.
(** DSNT, VC or a number of kilometres *)
Definition Distance_near (ws : list string) (d : Distance) : Prop :=
  ws = [] /\ d = Distance_default
  \/ (exists w, ws = [w] /\ In (w, d) far_or_near)
  \/ exists n v, ws = [n ++ "KM"] /\ (numeral 1 n v \/ numeral 2 n v) /\ d = mkDist DM_NONE (Some (1000 * v)) METERS.
(** An octant, no directional variation, or unknown *)
Definition Movement (ws : list string) (d : Direction) : Prop :=
  ws = [] /\ d = Direction_default
  \/ exists w, ws = ["MOV"; w]
     /\ ((exists o, In (w, o) octant_names /\ d = towards o) \/ In (w, d) [("NDV", mkDir 0 DT_NDV); ("UNKNOWN", mkDir 0 DT_UNKNOWN)]).
Record vicinity := Nearby
  { nearby_type : VcType; nearby_dist : Distance; nearby_dirs : list Direction; nearby_moves : Direction }.
Definition shows (g : VicinityGroup) (v : vicinity) : Prop :=
  vc_t g = nearby_type v /\ vc_dist g = nearby_dist v /\ VicinityGroup_directions g = Ok (nearby_dirs v)
  /\ vc_movDir g = nearby_moves v.
Inductive Vicinity_said : list string -> vicinity -> Prop :=
| Vicinity_words : forall pw t dw d b1 l1 ands b2 l2 l mw m,
    Phenomenon_near pw t -> Distance_near dw d -> Bearing_opt b1 l1 ->
    (ands = [] \/ ands = ["AND"] /\ b2 <> []) -> Bearing_opt b2 l2 -> Movement mw m ->
    (dw <> [] \/ b1 <> []) -> (b1 = [] -> b2 = [] /\ mw = []) -> Together l1 l2 l ->
    Vicinity_said (pw ++ dw ++ b1 ++ ands ++ b2 ++ mw) (Nearby t d l m).
