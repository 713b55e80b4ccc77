(** Proofs for C72: values which are left out. *)
From Coq Require Import List String.
From Verif Require Import Prim Float Values Weather Groups1 Groups2 Groups3 Groups4 Parser
  Format Explain SpecExplain SpecKinds SpecFacts Pf_ExTable Pf_ExShown.
Import ListNotations.
Local Open Scope string_scope.

Definition result_of (report : string) : res ParseResult := parse true report default_groupLimit.
Definition nth_group (n : nat) (report : string) : option GroupInfo :=
  match result_of report with Ok r => nth_error (pr_groups r) n | Bad _ => None end.
Lemma omits_at : forall n report g part raw x, nth_group n report = Some (mkGroupInfo g part raw) ->
  In x (map snd (facts g)) -> ~ said_otherwise g x ->
  (forall pow s, Visitor_visit (Ok "") (VisitorExplain pow) g part raw = Ok s -> ~ tells s x) -> omits report raw x.
Proof.
  intros n report g part raw x E F S V. unfold nth_group, result_of in E.
  destruct (parse true report default_groupLimit) as [r|] eqn:P; [|discriminate E].
  exists r, g, part. split; [exact P|]. split; [exact (nth_error_In _ _ E)|]. split; [exact F|]. split; [exact S|exact V].
Qed.
Lemma silent : forall s x t, (forall u, told_as x u -> u = t) -> mentions t s = false -> ~ tells s x.
Proof. intros s x t U M (u & T & N). apply U in T. subst u. congruence. Qed.

Lemma mentions_split : forall p s, mentions p s = true -> exists a b, s = a ++ p ++ b.
Proof.
  intros p s. induction s as [|c s IH]; rewrite mentions_eq; intros H; apply Bool.orb_true_iff in H; destruct H as [H|H].
  - exists "". apply prefix_correct in H. destruct p; [exists ""; reflexivity|discriminate H].
  - discriminate H.
  - exists "". clear IH. revert p H. generalize (String c s). intros t. induction t as [|d t IH]; intros p H.
    + destruct p; [exists ""; reflexivity|discriminate H].
    + destruct p as [|e p]; [exists (String d t); reflexivity|]. cbn [prefix] in H. destruct (Ascii.ascii_dec e d) as [->|]; [|discriminate H].
      destruct (IH _ H) as (b & E). exists b. cbn [append] in *. rewrite <- E. reflexivity.
  - destruct (IH H) as (a & b & ->). exists (String c a), b. reflexivity.
Qed.
Lemma silent_words : forall s ws w, In w ws -> mentions w s = false -> ~ tells s (Words ws).
Proof.
  intros s ws w Hw M (t & (_ & T) & N). destruct (mentions_split _ _ N) as (a & b & ->).
  rewrite (mentions_app w a t b (T _ Hw)) in M. discriminate M.
Qed.

Ltac at_place n := eapply (omits_at n); [vm_compute; reflexivity| | |].
Ltac found := cbn; repeat (first [left; reflexivity | right]).
Ltac unsaid t := intros pow s E; vm_compute in E; apply ok_same in E; subst s; apply (silent _ _ t);
  [intros u T; first [exact T | apply ok_same; rewrite <- T; vm_compute; reflexivity]|vm_compute; reflexivity].

Ltac unspoken := intros pow s E; vm_compute in E; apply ok_same in E; subst s; eapply silent_words; [left; reflexivity|vm_compute; reflexivity].

(** deposits on a runway which is clear and dry *)
Lemma extent_omitted : omits "METAR EGLL 170950Z R10/015093" "R10/015093" (Words ["&lt;10 percent"]).
Proof. at_place 3; [found|intros []|unspoken]. Qed.
Definition fifty : Precipitation := mkPrecip (Some (S754_finite false 13107200 (-18))) MM.
Lemma depth_omitted : omits "METAR EGLL 170950Z R10/015093" "R10/015093" (Fall fifty).
Proof. at_place 3; [found|intros []|unsaid "50.0 mm / 1.96 inches"]. Qed.
(** what is told about a runway which is not operational *)
Lemma deposits_omitted : omits "METAR EGLL 170950Z R10/819992" "R10/819992" (Words ["compacted"; "rolled snow"]).
Proof. at_place 3; [found|intros []|unspoken]. Qed.
Lemma friction_omitted : omits "METAR EGLL 170950Z R10/819992" "R10/819992" (Grip (mkSf Sf_BRAKING_ACTION_REPORTED 26)).
Proof. at_place 3; [found|intros []|unsaid "braking action medium/poor (friction coefficient 0.26 to 0.29)"]. Qed.
(** the trend of a runway visual range without runway *)
Lemma trend_omitted : omits "METAR EGLL 170950Z R///////U" "R///////U" (Words ["upward"]).
Proof. at_place 3; [found|intros []|unspoken]. Qed.
(** the sector for which visibility is not available *)
Lemma sector_omitted : omits "METAR EGLL 170950Z RMK VISNO N-E" "VISNO N-E" (Point (mkDir 45 DT_VALUE_CARDINAL)).
Proof. at_place 4; [found|intros []|unsaid "northeast"]. Qed.
(** the time at which undetermined precipitation began *)
Lemma began_omitted : omits "METAR EGLL 170950Z RMK UPB05" "UPB05" (Time (mkTime None 9 5)).
Proof. at_place 4; [found|intros []|unsaid "09:05 GMT"]. Qed.

(** Something is told about: a wind group with five values *)
Lemma facts_example : exists g, facts (GWind g) =
    [(["Wind direction: "], Bearing (mkDir 240 DT_VALUE_DEGREES)); (["Wind speed: "], Velocity (mkSpeed (Some 12%N) KNOTS));
     (["Gust speed: "], Velocity (mkSpeed (Some 25%N) KNOTS)); (["sector from "], Bearing (mkDir 200 DT_VALUE_DEGREES));
     (["clockwise to "], Bearing (mkDir 280 DT_VALUE_DEGREES))]
  /\ nth_group 3 "METAR EGLL 170950Z 24012G25KT 200V280" = Some (mkGroupInfo (GWind g) RP_METAR "24012G25KT 200V280").
Proof. eexists. split; [|vm_compute; reflexivity]. vm_compute. reflexivity. Qed.
