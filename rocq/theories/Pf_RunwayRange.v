(** C51: runway visual range, and visibility in meters. *)
From Coq Require Import Lia ZifyBool ZifyN ZifyNat.
From Verif Require Import Prim Lib Regex Float Values Groups1 Groups2 Groups4 Parser SpecRegex SpecForm SpecDecimal SpecNumeral
  SpecMiles SpecDirection SpecNearby SpecTexts.
From Verif Require Import Pf_Ok Pf_OkValues Pf_OkGroups2 Pf_Caps Pf_Regex Pf_Decimal Pf_Numeral Pf_Form Pf_Shapes Pf_Decode Pf_Layout Pf_Prefer
  Pf_Values1 Pf_Values2 Pf_Values3 Pf_Values9 Pf_Formats Pf_Texts Pf_Nearby Pf_VisTexts.
From Verif Require Import SpecVisibility.
Local Open Scope string_scope.

Definition re_rw : re := Eval vm_compute in rx "R\d\d[RCL]?|R//".
Definition re_range : re := Eval vm_compute in rx "////|[PM]?\d\d\d\d".
Definition re_range_number : re := Eval vm_compute in rx "[PM]?\d\d\d\d".
Definition re_end : re := Eval vm_compute in rx "FT/?".
Definition re_trend : re := Eval vm_compute in rx "[UND/]".
Definition rgx_rvr1 : re := Eval vm_compute in rx "(R\d\d[RCL]?|R//)/(////|[PM]?\d\d\d\d)(?:V([PM]?\d\d\d\d))?(FT/)?([UND/])?".
Definition rgx_rvr2 : re := Eval vm_compute in rx "(R\d\d[RCL]?|R//)/(////|[PM]?\d\d\d\d)(?:V([PM]?\d\d\d\d))?(FT)([UND])?".
Definition some_cap (n : nat) (o : option string) : caps := match o with Some x => [(n, x)] | None => [] end.
Definition some_text (o : option string) : string := match o with Some x => x | None => "" end.
Definition caps_rvr (rw x : string) (y u t : option string) : caps :=
  (some_cap 5 t ++ some_cap 4 u ++ some_cap 3 y ++ [(2, x); (1, rw)])%nat%list.
Definition text_rvr (rw x : string) (y u t : option string) : string :=
  rw ++ "/" ++ x ++ match y with Some n => "V" ++ n | None => "" end ++ some_text u ++ some_text t.
Definition in_rvr (rw x : string) (y u t : option string) : Prop :=
  Lang re_rw rw /\ Lang re_range x /\ match y with Some n => Lang re_range_number n | None => True end
  /\ In u [None; Some "FT"; Some "FT/"] /\ In t [None; Some "U"; Some "N"; Some "D"; Some "/"] /\ ~ (u = Some "FT" /\ t = Some "/").
Lemma prefer1 : preferred rgx_rvr rgx_rvr1 = true.
Proof. vm_compute. reflexivity. Qed.
Lemma prefer2 : preferred rgx_rvr rgx_rvr2 = true.
Proof. vm_compute. reflexivity. Qed.
Lemma rvr_match_of : forall rw x y u t, in_rvr rw x y u t -> regex_match rgx_rvr (text_rvr rw x y u t) = Some (caps_rvr rw x y u t).
Proof.
  intros rw x y u t (W & X & Y & U & T & N).
  assert (E : u = Some "FT" \/ u <> Some "FT") by (destruct U as [<-|[<-|[<-|[]]]]; auto; right; discriminate).
  destruct E as [-> |E].
  - assert (T' : In t [None; Some "U"; Some "N"; Some "D"]) by (destruct T as [<-|[<-|[<-|[<-|[<-|[]]]]]]; cbn; auto; destruct N; auto).
    assert (L : match t with Some a => Lang (rx "[UND]") a | None => True end) by (destruct T' as [<-|[<-|[<-|[<-|[]]]]]; exact I || (apply closed_lang; reflexivity)).
    clear T T' U N. unfold text_rvr, caps_rvr, some_text, some_cap. destruct y as [y|]; destruct t as [t|]; cbn [app].
    all: change (rx "[UND]") with (RCls [("U", "U"); ("N", "N"); ("D", "D")]%char) in *; (eapply (captured_in_as _ _ _ _ _ prefer2); [unfold rgx_rvr2; cap|reflexivity]).
  - assert (L : match t with Some a => Lang re_trend a | None => True end) by (destruct T as [<-|[<-|[<-|[<-|[<-|[]]]]]]; exact I || (apply closed_lang; reflexivity)).
    assert (U' : u = None \/ u = Some "FT/") by (destruct U as [<-|[<-|[<-|[]]]]; auto; congruence).
    clear T U E N. unfold text_rvr, caps_rvr, some_text, some_cap. destruct U' as [-> | ->], y as [y|]; destruct t as [t|]; cbn [app]; (eapply (captured_in_as _ _ _ _ _ prefer1); [unfold rgx_rvr1; cap|reflexivity]).
Qed.

Lemma rvr_match : forall s m, regex_match rgx_rvr s = Some m <->
  exists rw x y u t, s = text_rvr rw x y u t /\ m = caps_rvr rw x y u t /\ in_rvr rw x y u t.
Proof.
  intros s m. split; [|intros (rw & x & y & u & t & -> & -> & I); apply rvr_match_of; exact I].
  intros R. pose proof R as R0. apply regex_match_captures in R. unfold rgx_rvr in R.
  apply cap_seq in R. destruct R as (rw & s1 & c1 & d1 & -> & -> & C1 & R).
  apply cap_seq in R. destruct R as (sl & s2 & c2 & d2 & -> & -> & C2 & R).
  apply cap_seq in R. destruct R as (x & s3 & c3 & d3 & -> & -> & C3 & R).
  apply cap_seq in R. destruct R as (v & s4 & c4 & d4 & -> & -> & C4 & R).
  apply cap_seq in R. destruct R as (u & t & c5 & c6 & -> & -> & C5 & C6).
  captures C1. captures C2. captures C3. in_words L0 X. destruct X as [<-|[]].
  assert (Y : exists y, v = match y with Some n => "V" ++ n | None => "" end /\ c4 = some_cap 3 y /\ match y with Some n => Lang re_range_number n | None => True end).
  { captures C4; [exists None; auto|]. in_words L2 X. destruct X as [<-|[]]. eexists (Some _). split; [reflexivity|]. split; [reflexivity|assumption]. }
  assert (U : exists o, u = some_text o /\ c5 = some_cap 4 o /\ In o [None; Some "FT"; Some "FT/"]).
  { captures C5; [exists None; cbn; auto|]. in_words L2 X. exists (Some u). split; [reflexivity|]. split; [reflexivity|]. destruct X as [<-|[<-|[]]]; cbn; auto. }
  assert (T : exists o, t = some_text o /\ c6 = some_cap 5 o /\ In o [None; Some "U"; Some "N"; Some "D"; Some "/"]).
  { captures C6; [exists None; cbn; auto|]. in_words L2 X. exists (Some t). split; [reflexivity|]. split; [reflexivity|]. destruct X as [<-|[<-|[<-|[<-|[]]]]]; cbn; auto 6. }
  destruct Y as (y & -> & -> & Y), U as (u' & -> & -> & U), T as (t' & -> & -> & T).
  assert (D : u' = Some "FT" /\ t' = Some "/" \/ ~ (u' = Some "FT" /\ t' = Some "/")).
  { destruct U as [<-|[<-|[<-|[]]]]; destruct T as [<-|[<-|[<-|[<-|[<-|[]]]]]]; (left; split; reflexivity) || (right; intros [? ?]; discriminate). }
  destruct D as [[-> ->]|D].
  - exfalso. pose proof (rvr_match_of rw x y (Some "FT/") None) as M. unfold text_rvr in M. cbn [some_text append] in M, R0.
    rewrite M in R0.
    + injection R0. destruct y; cbn; discriminate.
    + unfold in_rvr. repeat (split; [assumption || (cbn; tauto)|]). intros [? ?]; discriminate.
  - exists rw, x, y, u', t'. split; [reflexivity|]. split; [|unfold in_rvr; auto 10].
    unfold caps_rvr. rewrite !app_nil_r, <- !app_assoc. reflexivity.
Qed.

(** The group which tells [v] *)
Definition of_sight (v : sight) (i : ViInc) : VisibilityGroup :=
  mkVis (s_type v) (if Vis_isVariable (s_type v) then s_minimum v else s_visibility v) (s_maximum v) (s_trend v) (s_direction v) (s_runway v)
    (match s_sector v with Some (a, _) => Some a | None => None end) (match s_sector v with Some (_, b) => Some b | None => None end) i.
Lemma runway_short_lang : forall w r, Runway_text false w r -> Lang re_rw w /\ w <> "R//".
Proof.
  intros w r R. split.
  - apply L_alt1. destruct R as (p & d & x & -> & P & N & X). destruct P as [-> |[_ P]]; [|discriminate P]. destruct N as [L D]. explode.
    pose proof (numeral_shape 2 (String c (String c0 "")) _ (conj eq_refl D)) as F. unfold fits_shape in F. cbn in F.
    apply andb_prop in F. destruct F as [F1 F]. apply andb_prop in F. destruct F as [F2 _].
    apply L_seq; [apply closed_lang; reflexivity|]. change (String c (String c0 "") ++ x) with (String c "" ++ String c0 "" ++ x).
    apply L_seq; [apply L_cls; exact F1|]. apply L_seq; [apply L_cls; exact F2|].
    destruct X as [X|[X|[X|[X|[]]]]]; injection X; intros; subst; apply closed_lang; reflexivity.
  - intros ->. apply runway_text in R. discriminate R.
Qed.
Lemma lang_runway_short : forall w, Lang re_rw w -> w = "R//" \/ exists r, Runway_text false w r.
Proof.
  intros w L. unfold re_rw in L. inversion L as [| | |a b p Lp|a b p Lp| | | | |]; subst.
  - right. assert (A : accepted (Runway_fromString w false)).
    { apply short_runway_format. inversion Lp as [| |a b p q Lr Lq| | | | | | |]; subst. inversion Lq as [| |a b p' q' Lp' Lq'| | | | | | |]; subst.
      inversion Lq' as [| |a b p2 q2 Lp2 Lq2| | | | | | |]; subst.
      apply L_seq; [exact Lr|]. rewrite <- sapp_assoc. apply L_seq; [apply L_grp; apply L_seq; [exact Lp'|exact Lp2]|].
      in_words Lq2 X. destruct X as [<-|[<-|[<-|[<-|[]]]]]; apply closed_lang; reflexivity. }
    destruct A as (r & A). exists r. apply runway_text. exact A.
  - left. in_words Lp X. destruct X as [<-|[]]. reflexivity.
Qed.
Lemma range_number_lang : forall feet n d, Visual_range feet n d -> n <> "////" -> Lang re_range_number n.
Proof.
  intros feet n d [[-> _]|(p & m & x & v & -> & P & N & _)] X; [contradiction|]. unfold re_range_number.
  apply L_seq; [destruct P as [P|[P|[P|[]]]]; injection P as <- <-; apply closed_lang; reflexivity|apply (numeral_lang 4 x v); [exact N|reflexivity]].
Qed.
Lemma range_lang : forall feet n d, Visual_range feet n d -> Lang re_range n.
Proof.
  intros feet n d V. destruct (string_dec n "////") as [-> |N]; [apply closed_lang; reflexivity|]. apply L_alt2. eapply range_number_lang; eassumption.
Qed.
Lemma lang_range : forall feet n, Lang re_range n -> exists d, Visual_range feet n d.
Proof.
  intros feet n L. assert (A : accepted (Distance_fromRvrString n feet)).
  { apply rvr_format. unfold re_range in L. inversion L as [| | |a b p Lp|a b p Lp| | | | |]; subst.
    - apply L_alt2. exact Lp.
    - apply L_alt1. inversion Lp as [| |a b p q Lr Lq| | | | | | |]; subst. apply L_seq; [|apply L_grp; exact Lq]. in_words Lr X. destruct X as [<-|[<-|[<-|[]]]]; apply closed_lang; reflexivity. }
  destruct A as (d & A). exists d. apply rvr_text. exact A.
Qed.
Lemma lang_range_number : forall feet n, Lang re_range_number n -> n <> "////" /\ exists d, Visual_range feet n d.
Proof.
  intros feet n L. split; [intros ->; apply is_match_lang in L; discriminate L|]. apply lang_range. apply L_alt2. exact L.
Qed.
Definition feet_of (u : option string) : bool := match u with Some _ => true | None => false end.
Lemma ending_of : forall u t, In u [None; Some "FT"; Some "FT/"] -> In t [None; Some "U"; Some "N"; Some "D"; Some "/"] -> ~ (u = Some "FT" /\ t = Some "/") ->
  Ending (some_text u ++ some_text t) (feet_of u) (Vis_trendFromString (some_text t)).
Proof.
  intros u t U T N. exists (some_text u), (some_text t). split; [reflexivity|]. split; [destruct U as [<-|[<-|[<-|[]]]]; cbn; auto|].
  split; [destruct T as [<-|[<-|[<-|[<-|[<-|[]]]]]]; cbn; auto 7|]. intros [A B]. apply N.
  destruct U as [<-|[<-|[<-|[]]]]; try discriminate A. destruct T as [<-|[<-|[<-|[<-|[<-|[]]]]]]; try discriminate B. auto.
Qed.
Lemma of_ending : forall e feet tr, Ending e feet tr -> exists u t, e = some_text u ++ some_text t /\ feet = feet_of u /\ tr = Vis_trendFromString (some_text t)
  /\ In u [None; Some "FT"; Some "FT/"] /\ In t [None; Some "U"; Some "N"; Some "D"; Some "/"] /\ ~ (u = Some "FT" /\ t = Some "/").
Proof.
  intros e feet tr (u & w & -> & U & W & N).
  exists (match u with "" => None | _ => Some u end), (match w with "" => None | _ => Some w end).
  destruct U as [U|[U|[U|[]]]]; injection U as <- <-; destruct W as [W|[W|[W|[W|[W|[]]]]]]; injection W as <- <-;
    (split; [reflexivity|]; split; [reflexivity|]; split; [reflexivity|]; split; [cbn; tauto|]; split; [cbn; tauto|]; intros [? ?]; try discriminate; apply N; auto).
Qed.
Lemma rvr_words : forall s g, Vis_fromRvr s = Ok (Some g) <-> exists v, Runway_range s v /\ g = of_sight v ViI_NONE.
Proof.
  intros s g. split.
  - intros H. unfold Vis_fromRvr in H. destruct (regex_match rgx_rvr s) as [m|] eqn:R; [|discriminate H]. apply rvr_match in R.
    destruct R as (rw & x & y & u & t & -> & -> & W & X & Y & U & T & N).
    assert (M1 : mstr (caps_rvr rw x y u t) 1 = rw) by (destruct y, u, t; reflexivity).
    assert (M2 : mstr (caps_rvr rw x y u t) 2 = x) by (destruct y, u, t; reflexivity).
    assert (M3 : mstr (caps_rvr rw x y u t) 3 = some_text y) by (destruct y, u, t; reflexivity).
    assert (M4 : mstr (caps_rvr rw x y u t) 4 = some_text u) by (destruct y, u, t; reflexivity).
    assert (M5 : mstr (caps_rvr rw x y u t) 5 = some_text t) by (destruct y, u, t; reflexivity).
    unfold mlen in H. rewrite M1, M2, M3, M4, M5 in H. clear M1 M2 M3 M4 M5.
    assert (Fe : negb (Nat.eqb (slen (some_text u)) 0) = feet_of u) by (destruct U as [<-|[<-|[<-|[]]]]; reflexivity).
    rewrite Fe in H. cbv zeta in H. pose proof (ending_of u t U T N) as En. unfold text_rvr.
    destruct (lang_range (feet_of u) _ X) as (d & V). rewrite (proj2 (rvr_text x (feet_of u) d) V) in H.
    destruct (lang_runway_short _ W) as [-> |(r & Rw)].
    + cbn [seqb] in H. change (seqb "R//" "R//") with true in H. cbn [andb] in H.
      destruct (seqb x "////") eqn:Ex; [|discriminate H]. apply seqb_eq in Ex. subst x. cbn [negb] in H.
      destruct (seqb (some_text t) "/") eqn:Et; [discriminate H|].
      assert (Nt : Vis_trendFromString (some_text t) <> Vt_NOT_REPORTED).
      { destruct T as [<-|[<-|[<-|[<-|[<-|[]]]]]]; discriminate || discriminate Et. }
      change (Runway_fromString "R//" false) with (@Ok (option Runway) None) in H. cbn [bind has_value negb andb] in H.
      assert (Ed : d = mkDist DM_NONE None (if feet_of u then FEET else METERS)).
      { destruct V as [[_ V]|(p & mm & n & v & E & P & Nn & _)]; [exact V|exfalso]. destruct P as [P|[P|[P|[]]]]; injection P as <- <-; cbn in E; try discriminate E. subst n. destruct Nn as [_ Nn]. discriminate Nn. }
      subst d. destruct y as [y|].
      * destruct (lang_range_number (feet_of u) _ Y) as (Ny & hi & Vy).
        assert (Ly : negb (Nat.eqb (slen (some_text (Some y))) 0) = true) by (destruct y; [apply is_match_lang in Y; discriminate Y|reflexivity]).
        rewrite Ly in H. cbn [some_text] in H. rewrite (proj2 (rvr_text y (feet_of u) hi) Vy) in H. injection H as <-.
        eexists. split; [eapply Runway_range_none_varies; eassumption|reflexivity].
      * injection H as <-. eexists. split; [eapply Runway_range_none; eassumption|reflexivity].
    + pose proof (runway_short_lang _ _ Rw) as [_ Nr]. assert (Er : seqb rw "R//" = false) by (destruct (seqb rw "R//") eqn:E; [apply seqb_eq in E; contradiction|reflexivity]).
      rewrite Er in H. cbn [andb] in H. rewrite (proj2 (runway_text rw false r) Rw) in H. cbn [bind has_value negb andb] in H.
      destruct y as [y|].
      * destruct (lang_range_number (feet_of u) _ Y) as (Ny & hi & Vy).
        assert (Ly : negb (Nat.eqb (slen (some_text (Some y))) 0) = true) by (destruct y; [apply is_match_lang in Y; discriminate Y|reflexivity]).
        rewrite Ly in H. cbn [some_text] in H. rewrite (proj2 (rvr_text y (feet_of u) hi) Vy) in H. injection H as <-.
        rewrite sapp_assoc. eexists. split; [eapply Runway_range_varies; eassumption|reflexivity].
      * injection H as <-. eexists. split; [eapply Runway_range_one; eassumption|reflexivity].
  - assert (Go : forall rw x y u t d (r : option Runway) (v : sight), in_rvr rw x y u t -> Visual_range (feet_of u) x d ->
      (exists k, r = Some k /\ Runway_text false rw k) \/ r = None /\ rw = "R//" /\ x = "////" /\ Vis_trendFromString (some_text t) <> Vt_NOT_REPORTED ->
      (y = None /\ v = Sight Vi_RVR d no_distance no_distance (Vis_trendFromString (some_text t)) None r None
       \/ exists n hi, y = Some n /\ Visual_range (feet_of u) n hi /\ v = Sight Vi_VARIABLE_RVR no_distance d hi (Vis_trendFromString (some_text t)) None r None) ->
      s = text_rvr rw x y u t -> g = of_sight v ViI_NONE -> Vis_fromRvr s = Ok (Some g)).
    { intros rw x y u t d r v I V K Yv -> ->. unfold Vis_fromRvr. rewrite (rvr_match_of _ _ _ _ _ I). destruct I as (W & X & Y & U & T & N).
      assert (M1 : mstr (caps_rvr rw x y u t) 1 = rw) by (destruct y, u, t; reflexivity).
      assert (M2 : mstr (caps_rvr rw x y u t) 2 = x) by (destruct y, u, t; reflexivity).
      assert (M3 : mstr (caps_rvr rw x y u t) 3 = some_text y) by (destruct y, u, t; reflexivity).
      assert (M4 : mstr (caps_rvr rw x y u t) 4 = some_text u) by (destruct y, u, t; reflexivity).
      assert (M5 : mstr (caps_rvr rw x y u t) 5 = some_text t) by (destruct y, u, t; reflexivity).
      unfold mlen. rewrite M1, M2, M3, M4, M5. clear M1 M2 M3 M4 M5.
      assert (Fe : negb (Nat.eqb (slen (some_text u)) 0) = feet_of u) by (destruct U as [<-|[<-|[<-|[]]]]; reflexivity).
      rewrite Fe. cbv zeta. rewrite (proj2 (rvr_text x (feet_of u) d) V).
      assert (G1 : seqb rw "R//" && negb (seqb x "////") = false).
      { destruct K as [(k & _ & K)|(_ & -> & -> & _)]; [|reflexivity]. apply runway_short_lang in K. destruct K as [_ K].
        destruct (seqb rw "R//") eqn:E; [apply seqb_eq in E; contradiction|reflexivity]. }
      assert (G2 : seqb rw "R//" && seqb (some_text t) "/" = false).
      { destruct K as [(k & _ & K)|(_ & -> & -> & K)].
        - apply runway_short_lang in K. destruct K as [_ K]. destruct (seqb rw "R//") eqn:E; [apply seqb_eq in E; contradiction|reflexivity].
        - change (seqb "R//" "R//") with true. destruct T as [<-|[<-|[<-|[<-|[<-|[]]]]]]; try reflexivity. destruct K. reflexivity. }
      assert (G3 : Runway_fromString rw false = Ok r).
      { destruct K as [(k & -> & K)|(-> & -> & _)]; [apply runway_text; exact K|reflexivity]. }
      assert (G4 : negb (has_value r) && negb (seqb rw "R//") = false).
      { destruct K as [(k & -> & K)|(-> & -> & _)]; reflexivity. }
      rewrite G1, G2, G3. cbn [bind]. rewrite G4. destruct Yv as [[-> ->]|(n & hi & -> & Vn & ->)]; [reflexivity|].
      assert (Ly : negb (Nat.eqb (slen (some_text (Some n))) 0) = true) by (destruct n; [apply is_match_lang in Y; discriminate Y|reflexivity]).
      rewrite Ly. cbn [some_text]. rewrite (proj2 (rvr_text n (feet_of u) hi) Vn). reflexivity. }
    intros (v & V & E). destruct V as [r x e runway feet d t Rw Vx En|r x y e runway feet low high t Rw Vx Vy Ny En|e feet t En Nt|y e feet high t Vy Ny En Nt];
      destruct (of_ending _ _ _ En) as (u & w & -> & -> & -> & U & T & N).
    + eapply (Go r x None u w); [|exact Vx|left; eauto|left; split; reflexivity|reflexivity|exact E].
      unfold in_rvr. split; [apply (runway_short_lang _ _ Rw)|]. split; [eapply range_lang; exact Vx|]. auto.
    + eapply (Go r x (Some y) u w); [|exact Vx|left; eauto|right; exists y, high; split; [reflexivity|]; split; [exact Vy|reflexivity]|unfold text_rvr; rewrite !sapp_assoc; reflexivity|exact E].
      unfold in_rvr. split; [apply (runway_short_lang _ _ Rw)|]. split; [eapply range_lang; exact Vx|]. split; [eapply range_number_lang; eassumption|]. auto.
    + eapply (Go "R//" "////" None u w _ None); [|left; split; reflexivity|right; auto|left; split; reflexivity|reflexivity|exact E].
      unfold in_rvr. split; [apply closed_lang; reflexivity|]. split; [apply closed_lang; reflexivity|]. auto.
    + eapply (Go "R//" "////" (Some y) u w _ None); [|left; split; reflexivity|right; auto|right; exists y, high; split; [reflexivity|]; split; [exact Vy|reflexivity]|unfold text_rvr; rewrite !sapp_assoc; reflexivity|exact E].
      unfold in_rvr. split; [apply closed_lang; reflexivity|]. split; [apply closed_lang; reflexivity|]. split; [eapply range_number_lang; eassumption|]. auto.
Qed.

(** ** Meters and directions *)
Definition re_letters : re := Eval vm_compute in rx "[NSWE][WED]?[V]?".
Lemma meters_any : forall w, Lang (rx "\d\d\d\d|////") w <-> exists d, Meters w d.
Proof.
  intros w. split.
  - intros L. assert (A : accepted (Distance_fromMeterString w)).
    { apply meter_format. inversion L as [| | |a b p Lp|a b p Lp| | | | |]; subst; [apply L_alt1, L_grp; exact Lp|apply L_alt2; exact Lp]. }
    destruct A as (d & A). exists d. apply meters_text. exact A.
  - intros (d & [[-> _]|[[-> _]|(v & N & _)]]); [apply closed_lang; reflexivity|apply closed_lang; reflexivity|]. apply L_alt1. apply (numeral_lang 4 w v); [exact N|reflexivity].
Qed.
Inductive In_meters : string -> sight -> Prop :=
| In_meters_plain : forall w d, Meters w d -> In_meters w (seen Around d)
| In_meters_towards : forall w x d o, Meters w d -> In (x, o) octant_names -> In_meters (w ++ x) (seen (Towards (towards o)) d)
| In_meters_no_variation : forall w d, Meters w d -> In_meters (w ++ "NDV") (told Vi_PREVAILING_NDV (Towards (mkDir 0 DT_NDV)) d)
| In_meters_letters : forall w x d, Meters w d -> matches "[NSWE][WED]?[V]?" x ->
    ~ In x (map fst octant_names) -> x <> "NDV" -> In_meters (w ++ x) (seen Around d).
Lemma meters_match : forall w x d, Meters w d -> match x with Some l => Lang re_letters l | None => True end ->
  regex_match rgx_vismeters (w ++ some_text x) = Some (some_cap 2 x ++ [(1, w)])%nat%list.
Proof.
  intros w x d M L. assert (Lw : Lang (rx "\d\d\d\d|////") w) by (apply meters_any; eauto).
  change (rx "\d\d\d\d|////") with (ltac:(let x := eval vm_compute in (rx "\d\d\d\d|////") in exact x)) in Lw.
  destruct x as [x|]; cbn [some_text some_cap app]; cap_match.
Qed.
Lemma meters_words : forall s g, Vis_fromMeters s = Ok (Some g) <-> exists v, In_meters s v /\ g = of_sight v ViI_NONE.
Proof.
  intros s g. split.
  - intros H. unfold Vis_fromMeters in H. destruct (regex_match rgx_vismeters s) as [m|] eqn:R; [|discriminate H]. apply regex_match_captures in R. unfold rgx_vismeters in R.
    apply cap_seq in R. destruct R as (w & x & c1 & c2 & -> & -> & C1 & C2). captures C1. apply meters_any in L. destruct L as (d & M).
    captures C2.
    + cbn [mstr find app fst snd Nat.eqb] in H. rewrite (proj2 (meters_text w d) M) in H. injection H as <-. rewrite empty_app. eexists. split; [apply In_meters_plain; exact M|reflexivity].
    + cbn [mstr find app fst snd Nat.eqb] in H. rewrite (proj2 (meters_text w d) M) in H. cbn [bind] in H.
      destruct (Direction_fromCardinalString x false false) as [k|] eqn:D.
      * apply place_cardinal in D. inversion D as [x' o I| |]; subst; injection H as <-.
        -- eexists. split; [eapply In_meters_towards; eassumption|]. reflexivity.
        -- eexists. split; [eapply In_meters_no_variation; eassumption|]. reflexivity.
      * injection H as <-. eexists. split; [eapply In_meters_letters; try eassumption|reflexivity].
        -- intros I. apply in_map_iff in I. destruct I as ([y o] & <- & I). cbn [fst] in D. rewrite (octant_read _ _ _ _ I) in D. discriminate D.
        -- intros ->. discriminate D.
  - intros (v & V & ->). unfold Vis_fromMeters. destruct V as [w d M|w x d o M I|w d M|w x d M L N1 N2].
    + pose proof (meters_match w None d M Logic.I) as R. cbn [some_text] in R. rewrite empty_app in R. rewrite R. cbn [mstr find app fst snd Nat.eqb some_cap].
      rewrite (proj2 (meters_text w d) M). reflexivity.
    + change (w ++ x) with (w ++ some_text (Some x)); rewrite (meters_match w (Some x) d M). 2: { cbn [octant_names In] in I. repeat (destruct I as [I|I]; [injection I as <- <-; apply closed_lang; reflexivity|]). contradiction. }
      cbn [mstr find app fst snd Nat.eqb some_cap]. rewrite (proj2 (meters_text w d) M). cbn [bind]. rewrite (octant_read _ _ _ _ I).
      cbn [octant_names In] in I. repeat (destruct I as [I|I]; [injection I as <- <-; reflexivity|]). contradiction.
    + change (w ++ "NDV") with (w ++ some_text (Some "NDV")); rewrite (meters_match w (Some "NDV") d M) by (apply closed_lang; reflexivity).
      cbn [mstr find app fst snd Nat.eqb some_cap]. rewrite (proj2 (meters_text w d) M). reflexivity.
    + change (w ++ x) with (w ++ some_text (Some x)); rewrite (meters_match w (Some x) d M) by exact L. cbn [mstr find app fst snd Nat.eqb some_cap]. rewrite (proj2 (meters_text w d) M). cbn [bind].
      destruct (Direction_fromCardinalString x false false) as [k|] eqn:D; [exfalso|reflexivity].
      apply place_cardinal in D. inversion D as [x' o I| |]; subst; [apply N1, in_map_iff; exists (x, o); auto|contradiction].
Qed.
