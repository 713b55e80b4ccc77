(** Proofs for C72: no reported value is left out of an explanation. *)
From Coq Require Import List String Lia.
From Verif Require Import Prim Lib Float Values Weather Groups1 Groups2 Groups3 Groups4 Parser
  Format Explain SpecExplain SpecKinds SpecFacts Pf_ExTable Pf_ExShown.
Import ListNotations.
Local Open Scope string_scope.

(** What is said after the text [a] tells the value. *)
Definition after (a : string) (r : res string) (labels : list string) (x : fact) : Prop :=
  forall s, r = Ok s -> tells_as (a ++ s) labels x.

Fixpoint ends_with (l a : string) : bool :=
  String.eqb l a || match a with EmptyString => false | String _ t => ends_with l t end.
Definition labelled (labels : list string) (a : string) : bool := existsb (fun l => ends_with l a) labels.
Lemma ends_app : forall l a, ends_with l a = true -> exists p, a = p ++ l.
Proof.
  intros l a. induction a as [|c a IH]; cbn [ends_with]; intros H; apply Bool.orb_true_iff in H; destruct H as [H|H].
  - exists "". symmetry. apply String.eqb_eq. exact H.
  - discriminate H.
  - exists "". symmetry. apply String.eqb_eq. exact H.
  - destruct (IH H) as (p & ->). exists (String c p). reflexivity.
Qed.
Lemma labelled_by : forall labels a, labelled labels a = true -> exists l p, In l labels /\ a = p ++ l.
Proof.
  intros labels a H. apply existsb_exists in H. destruct H as (l & Hl & H). destruct (ends_app _ _ H) as (p & ->). exists l, p. split; [exact Hl|reflexivity].
Qed.
Lemma labelled_suffix : forall labels l p, In l labels -> labelled labels (p ++ l) = true.
Proof.
  intros labels l p H. apply existsb_exists. exists l. split; [exact H|]. induction p as [|c p IH].
  - cbn [append]. destruct l as [|c l]; cbn [ends_with]; rewrite String.eqb_refl; reflexivity.
  - cbn [append ends_with]. rewrite IH. apply Bool.orb_true_r.
Qed.

Lemma mentions_self : forall p, mentions p p = true.
Proof. intros p. rewrite <- (app_empty_r p) at 2. apply mentions_prefix. Qed.
Lemma tells_in : forall labels x a w b, tells_as w labels x -> tells_as (a ++ w ++ b) labels x.
Proof. intros labels x a w b (l & t & L & T & M). exists l, t. split; [exact L|]. split; [exact T|]. apply mentions_app. exact M. Qed.
Lemma tells_later : forall labels x a w, tells_as w labels x -> tells_as (a ++ w) labels x.
Proof. intros labels x a w H. rewrite <- (app_empty_r w). apply tells_in. exact H. Qed.

Lemma after_here : forall a r l labels x, after a r labels x -> after a (say (r :: l)) labels x.
Proof.
  intros a r l labels x H s E. apply say_ok in E. destruct E as (u & t & Eu & _ & ->).
  rewrite <- app_assoc_s. apply (tells_in labels x "" (a ++ u) t). exact (H _ Eu).
Qed.
Lemma after_put : forall a b l labels x, after (a ++ b) (say l) labels x -> after a (say (put b :: l)) labels x.
Proof.
  intros a b l labels x H s E. apply say_ok in E. destruct E as (u & t & Eu & Et & ->). apply ok_same in Eu. subst u.
  rewrite <- app_assoc_s. exact (H _ Et).
Qed.
Lemma after_line : forall a b l labels x, after (a ++ String "010"%char b) (say l) labels x -> after a (say (line b :: l)) labels x.
Proof. intros a b. exact (after_put a (String "010"%char b)). Qed.
Lemma after_later : forall a r l labels x, after "" (say l) labels x -> after a (say (r :: l)) labels x.
Proof.
  intros a r l labels x H s E. apply say_ok in E. destruct E as (u & t & _ & Et & ->).
  apply tells_later, tells_later. exact (H _ Et).
Qed.
Lemma after_weak : forall a r labels x, after "" r labels x -> after a r labels x.
Proof. intros a r labels x H s E. apply tells_later. exact (H _ E). Qed.
Lemma after_when : forall a b r labels x, b = true -> after a r labels x -> after a (when b r) labels x.
Proof. intros a b r labels x -> H. exact H. Qed.
Lemma after_told : forall a r labels x, labelled labels a = true -> (forall t, r = Ok t -> told_as x t) -> after a r labels x.
Proof.
  intros a r labels x L H s E. destruct (labelled_by _ _ L) as (l & p & Hl & ->). exists l, s. split; [exact Hl|]. split; [exact (H _ E)|].
  rewrite app_assoc_s. rewrite <- (app_empty_r (l ++ s)) at 2. apply mentions_app. apply mentions_self.
Qed.
Definition has_words (w : string) (ws : list string) : bool := one_line w && forallb (fun k => mentions k w) ws.
Lemma has_told : forall w ws, has_words w ws = true -> told_as (Words ws) w.
Proof. intros w ws H. apply andb_prop in H. destruct H as (O & F). split; [exact O|]. exact (proj1 (forallb_forall _ _) F). Qed.
Lemma after_words : forall a w labels ws, labelled labels a = true -> has_words w ws = true -> after a (put w) labels (Words ws).
Proof. intros a w labels ws L H. apply (after_told _ _ _ _ L). intros t E. apply ok_same in E. subst t. exact (has_told _ _ H). Qed.
Lemma after_line_words : forall a w labels ws, labelled labels newline = true -> has_words w ws = true -> after a (line w) labels (Words ws).
Proof.
  intros a w labels ws L H t E. apply ok_same in E. subst t. apply tells_later. exact (after_words newline w labels ws L H _ eq_refl).
Qed.
Lemma after_bad : forall a e labels x, after a (Bad e) labels x.
Proof. intros a e labels x s E. discriminate E. Qed.
Lemma after_map : forall (A : Type) a (f : A -> res string) v l labels x, In v l -> after "" (f v) labels x -> after a (say (map f l)) labels x.
Proof.
  intros A a f v l labels x Hi H. apply after_weak. induction l as [|b l IH]; [destruct Hi|]. cbn [map].
  destruct Hi as [->|Hi]; [apply after_here; exact H|apply after_later; exact (IH Hi)].
Qed.
Lemma after_bind : forall (A : Type) a (o : res A) (k : A -> res string) (v : A) labels x, o = Ok v -> after a (k v) labels x -> after a (bind o k) labels x.
Proof. intros A a o k v labels x -> H. exact H. Qed.

Lemma after_number : forall a v labels, labelled labels a = true -> after a (put (stream_flt v)) labels (Number v).
Proof. intros a v labels L. apply (after_told _ _ _ _ L). intros t E. left. apply ok_same. symmetry. exact E. Qed.
Lemma after_whole : forall a v labels, labelled labels a = true -> after a (int_of_flt v) labels (Number v).
Proof. intros a v labels L. apply (after_told _ _ _ _ L). intros t E. right. exact E. Qed.
Lemma after_bearing : forall a d b labels, labelled labels a = true -> after a (explainDirection d b) labels (Bearing d).
Proof. intros a d b labels L. apply (after_told _ _ _ _ L). intros t E. exists b. exact E. Qed.
Lemma after_point : forall a d labels, labelled labels a = true -> after a (put (cardinalDirectionToString (Direction_cardinal d false))) labels (Point d).
Proof. intros a d labels L. apply (after_told _ _ _ _ L). intros t E. apply ok_same. symmetry. exact E. Qed.
Lemma after_code : forall a c labels, labelled labels a = true -> after a (put c) labels (Code c).
Proof. intros a c labels L. apply (after_told _ _ _ _ L). intros t E. apply ok_same. symmetry. exact E. Qed.
Lemma after_heat_at : forall a v u r l labels, labelled labels a = true -> (forall b, r = Ok b -> explainMetafTime u = Ok b) ->
  after a (say (explainTemperature v :: put ", expected at " :: r :: l)) labels (HeatAt v u).
Proof.
  intros a v u r l labels L R s E. apply say_ok in E. destruct E as (h & t & Eh & Et & ->). apply say_ok in Et. destruct Et as (m & t' & Em & Et & ->).
  apply ok_same in Em. subst m. apply say_ok in Et. destruct Et as (b & rest & Eb & _ & ->). apply R in Eb.
  destruct (labelled_by _ _ L) as (lab & p & Hl & ->). exists lab, (h ++ ", expected at " ++ b). split; [exact Hl|].
  split; [exists h, b; repeat split; assumption|].
  replace ((p ++ lab) ++ h ++ ", expected at " ++ b ++ rest) with (p ++ (lab ++ h ++ ", expected at " ++ b) ++ rest)
    by (rewrite !app_assoc_s; reflexivity). apply mentions_app, mentions_self.
Qed.
Lemma after_sector : forall d l a first, In d l -> (first = true -> labelled in_directions a = true) ->
  after a (sector_loop first l) in_directions (Point d).
Proof.
  intros d l. induction l as [|b l IH]; intros a first Hi H; [destruct Hi|]. cbn [sector_loop].
  destruct Hi as [->|Hi].
  - destruct first.
    + apply (after_put a ""). rewrite app_empty_r. apply after_here. apply after_point. exact (H eq_refl).
    + apply (after_put a ", "). apply after_here. apply after_point. apply labelled_suffix. right. left. reflexivity.
  - do 2 apply after_later. apply after_here. apply IH; [exact Hi|discriminate].
Qed.

Ltac lab := vm_compute; reflexivity.
Ltac leaf := apply after_told; [lab|exact (fun _ e => e)].
Ltac plain b := let v := eval vm_compute in (String.eqb b b) in constr_eq v true.
Ltac find :=
  match goal with
  | |- after _ (say (explainTemperature ?v :: _)) _ (HeatAt ?v _) => apply after_heat_at; [lab|exact (fun _ e => e)]
  | |- after _ (say (put ?b :: _)) _ _ => first [apply after_here; find | plain b; apply after_put; find | apply after_later; find]
  | |- after _ (say (line ?b :: _)) _ _ => first [apply after_here; find | plain b; apply after_line; find | apply after_later; find]
  | |- after _ (say (_ :: _)) _ _ => first [apply after_here; find | apply after_later; find]
  | |- after _ (when ?b _) _ _ => apply after_when; [first [reflexivity | assumption]|find]
  | |- after _ (bind (Ok _) _) _ _ => cbn [bind]; find
  | |- after _ (bind (deref (Some _)) _) _ _ => cbn [deref bind]; find
  | |- after _ (bind (opt_value (Some _)) _) _ _ => cbn [opt_value bind]; find
  | |- after _ (explainMetafTime ?v) _ (Time ?v) => leaf
  | |- after _ (explainSpeed ?v) _ (Velocity ?v) => leaf
  | |- after _ (explainDirection ?v _) _ (Bearing ?v) => apply after_bearing; lab
  | |- after _ (explainDistance ?v) _ (Length ?v) => leaf
  | |- after _ (explainTemperature ?v) _ (Heat ?v) => leaf
  | |- after _ (explainPressure ?v) _ (Press ?v) => leaf
  | |- after _ (explainPrecipitation ?v) _ (Fall ?v) => leaf
  | |- after _ (explainRunway ?v) _ (Strip ?v) => leaf
  | |- after _ (explainSurfaceFriction ?v) _ (Grip ?v) => leaf
  | |- after _ (explainWaveHeight ?v) _ (Waves ?v) => leaf
  | |- after _ (explainCloudType ?v) _ (Clouds ?v) => leaf
  | |- after _ (explainWeatherPhenomena ?v) _ (Weather ?v) => leaf
  | |- after _ (put (stream_flt ?v)) _ (Number ?v) => apply after_number; lab
  | |- after _ (int_of_flt ?v) _ (Number ?v) => apply after_whole; lab
  | |- after _ (put (cardinalDirectionToString (Direction_cardinal ?d false))) _ (Point ?d) => apply after_point; lab
  | |- after _ (put ?v) _ (Code ?v) => apply after_code; lab
  | |- after _ (put ?v) _ (Words ?w) => apply after_words; [lab|vm_compute; reflexivity]
  | |- after _ (line ?v) _ (Words ?w) => apply after_line_words; [lab|vm_compute; reflexivity]
  end.

(** ** Groups whose values are all independent of the type *)
Definition complete (r : res string) (g : Group) : Prop :=
  Forall (fun e => said_otherwise g (snd e) \/ left_out g (snd e) \/ after "" r (fst e) (snd e)) (facts g).
Lemma label_all : forall labels xs (P : list string * fact -> Prop), Forall (fun x => P (labels, x)) xs -> Forall P (label labels xs).
Proof. intros labels xs P H. induction H as [|x xs Hx H IH]; [constructor|]. constructor; [exact Hx|exact IH]. Qed.
Lemma given_all : forall T (f : T -> fact) reported v (P : fact -> Prop),
  (reported v = true -> P (f v)) -> Forall P (given f reported v).
Proof. intros T f reported v P H. unfold given. destruct (reported v); [|constructor]. constructor; [exact (H eq_refl)|constructor]. Qed.
Lemma distance_all : forall v (P : fact -> Prop), (Distance_isReported v = true -> P (Length v)) -> Forall P (distance v).
Proof.
  intros v P H. apply given_all. intros E. apply H. rewrite <- E. unfold Distance_isReported, Distance_isValue.
  destruct (dist v), (distModifier v); reflexivity.
Qed.
Lemma bearing_all : forall v (P : fact -> Prop), (Direction_isReported v = true -> P (Bearing v)) -> Forall P (bearing v).
Proof. intros v P H. apply given_all. intros E. apply H. rewrite <- E. unfold Direction_isReported. destruct (dirType v); reflexivity. Qed.
Ltac is_given := first [apply distance_all|apply bearing_all|apply given_all].
Lemma words_all : forall b s (P : fact -> Prop), (b = true -> P (Words s)) -> Forall P (in_words b s).
Proof. intros b s P H. unfold in_words. destruct b; [|constructor]. constructor; [exact (H eq_refl)|constructor]. Qed.
Lemma any_all : forall T (f : T -> list fact) o (P : fact -> Prop), (forall v, o = Some v -> Forall P (f v)) -> Forall P (any f o).
Proof. intros T f [v|] P H; [exact (H v eq_refl)|constructor]. Qed.
Lemma points_all : forall r (P : fact -> Prop), (forall l d, r = Ok l -> In d l -> P (Point d)) -> Forall P (points r).
Proof. intros [l|] P H; [|constructor]. cbn [points]. apply Forall_forall. intros x Hx. apply in_map_iff in Hx. destruct Hx as (d & <- & Hd). exact (H l d eq_refl Hd). Qed.
Ltac each := repeat (apply Forall_app; split); try apply label_all; cbn [fst snd].
Ltac told := right; right.

Lemma location_complete : forall g part raw, complete (visit_Location g part raw) (GLocation g).
Proof. intros. unfold complete, facts. each. constructor; [told; unfold visit_Location; find|constructor]. Qed.
Lemma report_time_complete : forall g part raw, complete (visit_ReportTime g part raw) (GReportTime g).
Proof. intros. unfold complete, facts. each. is_given. intros _. told. unfold visit_ReportTime. find. Qed.
Lemma sea_complete : forall g part raw, complete (visit_SeaSurface g part raw) (GSeaSurface g).
Proof.
  intros. unfold complete, facts. each.
  - is_given. intros _. told. unfold visit_SeaSurface. find.
  - constructor; [told; unfold visit_SeaSurface; find|constructor].
Qed.
Lemma layer_complete : forall g part raw, complete (visit_LayerForecast g part raw) (GLayerForecast g).
Proof.
  intros. unfold complete, facts. each; is_given; intros E; told; unfold visit_LayerForecast; rewrite E.
  - cbn [negb andb]. cbv match. find.
  - cbn [negb]. rewrite Bool.andb_false_r. find.
Qed.
Lemma types_complete : forall g part raw, complete (visit_CloudTypes g part raw) (GCloudTypes g).
Proof.
  intros. unfold complete, facts. each. apply Forall_forall. intros x Hx. apply in_map_iff in Hx. destruct Hx as (c & <- & Hc).
  told. unfold visit_CloudTypes. do 2 apply after_later. apply after_here. apply (after_map _ _ _ c); [exact Hc|]. find.
Qed.
Lemma codes_complete : forall g part raw, complete (visit_LowMidHighCloud g part raw) (GLowMidHighCloud g).
Proof.
  intros [low mid high] part raw. unfold complete, facts, visit_LowMidHighCloud. cbn [lmh_low lmh_mid lmh_high]. each; (constructor; [|constructor]); told.
  - destruct low; find.
  - destruct mid; find.
  - destruct high; find.
Qed.
Lemma lightning_complete : forall g part raw, complete (visit_Lightning g part raw) (GLightning g).
Proof.
  intros. unfold complete, facts. each.
  - is_given. intros E. told. unfold visit_Lightning. find.
  - apply words_all. intros E. told. unfold visit_Lightning. destruct (lt_freq g); [discriminate E|find..].
  - apply words_all. intros E. told. unfold visit_Lightning. rewrite E. cbn [orb]. find.
  - apply words_all. intros E. told. unfold visit_Lightning. rewrite E, ?Bool.orb_true_r. cbn [orb]. find.
  - apply words_all. intros E. told. unfold visit_Lightning. rewrite E, ?Bool.orb_true_r. cbn [orb]. find.
  - apply words_all. intros E. told. unfold visit_Lightning. rewrite E, ?Bool.orb_true_r. cbn [orb]. find.
  - apply words_all. intros E. told. unfold visit_Lightning. rewrite E. find.
  - apply points_all. intros l d E Hd. told. unfold visit_Lightning. do 6 apply after_later. apply after_here.
    refine (after_bind _ _ _ _ _ _ _ E _). apply after_when; [destruct l; [destruct Hd|reflexivity]|].
    apply after_line, after_here. apply after_sector; [exact Hd|intros _; lab].
Qed.
Lemma vicinity_complete : forall g part raw, complete (visit_Vicinity g part raw) (GVicinity g).
Proof.
  intros. unfold complete, facts. each.
  - is_given. intros E. told. unfold visit_Vicinity. do 3 apply after_later. find.
  - apply points_all. intros l d E Hd. told. unfold visit_Vicinity. do 4 apply after_later. apply after_here.
    refine (after_bind _ _ _ _ _ _ _ E _). apply after_when; [destruct l; [destruct Hd|reflexivity]|].
    apply after_line, after_here. apply after_sector; [exact Hd|intros _; lab].
  - destruct (Direction_isReported (vc_movDir g)) eqn:E; [|constructor]. constructor; [|constructor].
    told. unfold visit_Vicinity. do 5 apply after_later. find.
Qed.
