(** The requests ask for the weather around the position (C103). *)
From Coq Require Import List String NArith ZArith Ascii.
From Verif Require Import Prim Format Page ExplainPage Options SpecPage SpecDecimal SpecOptions Pf_PageLines Pf_ExNumber Pf_Options Requests SpecRequests.
From Coq Require Import Lia.
Import ListNotations.
Local Open Scope N_scope.

Lemma js_app : forall a b, js (a ++ b)%string = (js a ++ js b)%list.
Proof. induction a as [|c a IH]; intros b; [reflexivity|]. unfold js in *. cbn. f_equal. apply IH. Qed.
Definition plain (s : jstring) : Prop := forall c, In c s -> ~ In c (js "&=%+#").
Lemma plain_app : forall a b, plain a -> plain b -> plain (a ++ b).
Proof. intros a b A B c I. apply in_app_or in I. destruct I; auto. Qed.
Definition plain_b (s : jstring) : bool := forallb (fun c => negb (existsb (N.eqb c) (js "&=%+#"))) s.
Lemma plain_of : forall s, plain_b s = true -> plain s.
Proof.
  intros s H c I J. unfold plain_b in H. rewrite forallb_forall in H. specialize (H c I).
  assert (existsb (N.eqb c) (js "&=%+#") = true) as K by (apply existsb_exists; exists c; split; [exact J|apply N.eqb_refl]). rewrite K in H. discriminate H.
Qed.
Lemma plain_numeric : forall s, Forall numeric_character s -> ~ In 43 s -> plain s.
Proof.
  intros s F P c I J. pose proof (numeric_not 38 s eq_refl F). pose proof (numeric_not 61 s eq_refl F). pose proof (numeric_not 37 s eq_refl F).
  cbn in J. destruct J as [<-|[<-|[<-|[<-|[<-|[]]]]]]; try contradiction.
  rewrite Forall_forall in F. destruct (F _ I) as [K _]. vm_compute in K. repeat (destruct K as [K|K]; [discriminate K|]). destruct K.
Qed.
Lemma plain_dec : forall n, plain (js (dec_N n)).
Proof.
  intros n c I J. unfold dec_N in I. generalize dependent (N.to_uint n). intros u I.
  assert (K : existsb (N.eqb c) (js "0123456789") = true).
  { induction u; cbn in I; try (destruct I as [<-|I]; [reflexivity|exact (IHu I)]). destruct I. }
  cbn in J. destruct J as [<-|[<-|[<-|[<-|[<-|[]]]]]]; discriminate K.
Qed.
Lemma plain_digits : forall k z, plain (js (dec_digits k z)).
Proof. induction k as [|k IH]; intros z; [intros c []|]. cbn [dec_digits]. rewrite js_app. apply plain_app; [apply IH|apply plain_dec]. Qed.
Lemma trim_in : forall s c, In c (js (trim_zeros s)) -> In c (js s).
Proof.
  induction s as [|a s IH]; intros c I; [exact I|]. cbn [trim_zeros] in I. destruct (trim_zeros s) as [|b r] eqn:E.
  - destruct (Ascii.eqb a "0"); [destruct I|]. destruct I as [<-|[]]. left. reflexivity.
  - destruct I as [<-|I]; [left; reflexivity|]. right. apply IH. exact I.
Qed.
Lemma plain_quotient : forall k z, plain (js (js_quotient k z)).
Proof.
  intros k z. unfold js_quotient. rewrite !js_app. repeat apply plain_app; [destruct (z <? 0)%Z; apply plain_of; reflexivity|apply plain_dec|].
  destruct (trim_zeros (dec_digits k (Z.abs z mod 10 ^ Z.of_nat k))) as [|a r] eqn:E; [intros c []|].
  rewrite js_app. apply plain_app; [apply plain_of; reflexivity|]. rewrite <- E. intros c I. exact (plain_digits k _ c (trim_in _ c I)).
Qed.
Lemma plain_radial : forall d lat lon, plain (number_text d) -> plain (radialDistance d lat lon).
Proof.
  intros d lat lon P. unfold radialDistance. repeat apply plain_app; [exact P|apply plain_of; reflexivity|apply plain_quotient|apply plain_of; reflexivity|apply plain_quotient].
Qed.

Lemma plain_written : forall s, plain s -> written s /\ spaces s = s.
Proof.
  intros s P. split.
  - intros c I J. apply (P c I). cbn in *. tauto.
  - unfold spaces. rewrite <- (map_id s) at 2. apply map_ext_in. intros c I. destruct (c =? 43) eqn:E; [|reflexivity].
    apply N.eqb_eq in E. subst c. exfalso. apply (P 43 I). cbn. tauto.
Qed.
Lemma reads_plain : forall address service ps, address = service ++ js "?" ++ assignments ps -> ps <> [] ->
  Forall (fun p => plain (fst p) /\ plain (snd p)) ps -> reads address service ps.
Proof.
  intros address service ps E N F. exists ps. split; [exact E|]. split; [exact N|]. clear E N. split.
  - eapply Forall_impl; [|exact F]. intros p [A B]. split; apply plain_written; assumption.
  - induction F as [|[a b] l [A B] F IH]; [reflexivity|]. cbn [map fst snd] in *. rewrite <- IH.
    rewrite (proj2 (plain_written a A)), (proj2 (plain_written b B)). reflexivity.
Qed.
Lemma addresses_of : forall other query lat lon d, requestDistance other query = Ok d -> plain (number_text d) ->
  exists la lo metars tafs stations, divided 2 la lat /\ divided 2 lo lon
    /\ requestAddresses other query lat lon = Ok [metars; tafs; stations]
    /\ let place := number_text d ++ js ";" ++ js lo ++ js "," ++ js la in
       reads metars data_server (ask_reports "metars" "3" place)
       /\ reads tafs data_server (ask_reports "tafs" "24" place)
       /\ reads stations data_server (ask_stations place).
Proof.
  intros other query lat lon d D P. unfold requestAddresses. rewrite D. cbn [bind].
  eexists _, _, _, _, _. split; [apply quotient_shown|]. split; [apply quotient_shown|]. split; [reflexivity|]. cbv zeta.
  pose proof (plain_radial d lat lon P) as R. unfold radialDistance in R. unfold metarUrl, tafUrl, stationUrl, radialDistance.
  set (place := number_text d ++ js ";" ++ js (js_quotient 2 lon) ++ js "," ++ js (js_quotient 2 lat)) in *. clearbody place.
  assert (S : forall s t, plain_b (js s) = true -> plain_b t = true -> plain (js s) /\ plain t) by (intros; split; apply plain_of; assumption).
  assert (S' : plain (js "radialDistance") /\ plain place) by (split; [apply plain_of; reflexivity|exact R]).
  unfold ask_reports, ask_stations. split; [|split]; (apply reads_plain; [|discriminate|repeat (constructor; [first [exact S'|apply S; reflexivity]|]); constructor]);
  cbn [assignments]; unfold data_server, assignment; cbn [fst snd]; rewrite <- !app_assoc; reflexivity.
Qed.

Theorem addresses_read : forall other query lat lon c, numbers_are_read_back other -> in_effect other query c -> ~ In 43 (number_text (distance c)) ->
  exists la lo metars tafs stations, divided 2 la lat /\ divided 2 lo lon
    /\ requestAddresses other query lat lon = Ok [metars; tafs; stations]
    /\ let place := number_text (distance c) ++ js ";" ++ js lo ++ js "," ++ js la in
       reads metars data_server (ask_reports "metars" "3" place)
       /\ reads tafs data_server (ask_reports "tafs" "24" place)
       /\ reads stations data_server (ask_stations place).
Proof.
  intros other query lat lon c R E P. pose proof (effect_sound other query _ R E) as (_ & _ & Num & _).
  apply addresses_of; [exact (proj2 E)|exact (plain_numeric _ Num P)].
Qed.
Theorem parameter_requested : forall other ps query v lat lon n,
  query_with ps query -> Forall proper_parameter ps -> last_value (js "distance") ps v ->
  (v = None /\ n = 30 \/ exists s, v = Some (js s) /\ s <> ""%string /\ decimal s = Some n /\ 0 < n < 9007199254740992) ->
  exists t la lo metars tafs stations, decimal t = Some n /\ divided 2 la lat /\ divided 2 lo lon
    /\ requestAddresses other query lat lon = Ok [metars; tafs; stations]
    /\ let place := js t ++ js ";" ++ js lo ++ js "," ++ js la in
       reads metars data_server (ask_reports "metars" "3" place)
       /\ reads tafs data_server (ask_reports "tafs" "24" place)
       /\ reads stations data_server (ask_stations place).
Proof.
  intros other ps query v lat lon n Q F L H. destruct (distance_parameter other ps query v Q F L) as [A B].
  assert (D : requestDistance other query = Ok (Whole n)).
  { destruct H as [[V ->]|(s & V & N & E & R)]; [exact (A V)|exact (B s n V N E R)]. }
  exists (dec_N n). destruct (addresses_of other query lat lon _ D (plain_dec n)) as (la & lo & m & t & st & X).
  exists la, lo, m, t, st. split; [apply decimal_dec|exact X].
Qed.

Lemma cut_unique : forall (c : N) a b a' b', ~ In c a -> ~ In c a' -> a ++ c :: b = a' ++ c :: b' -> a = a' /\ b = b'.
Proof.
  intros c. induction a as [|x a IH]; intros b [|y a'] b' A A' E; cbn in *.
  - injection E as ->. tauto.
  - injection E as -> _. exfalso. apply A'. left. reflexivity.
  - injection E as <- _. exfalso. apply A. left. reflexivity.
  - injection E as <- E. destruct (IH b a' b') as [-> ->]; [tauto|tauto|exact E|]. tauto.
Qed.
Lemma written_not : forall s c, written s -> In c (js "&=%#") -> ~ In c s.
Proof. intros s c W J I. exact (W c I J). Qed.
Lemma assignments_cons : forall p q ps, assignments (p :: q :: ps) = fst p ++ 61 :: snd p ++ 38 :: assignments (q :: ps).
Proof. intros. cbn [assignments]. unfold assignment. rewrite <- app_assoc. cbn. rewrite <- ?app_assoc. reflexivity. Qed.
Lemma assignments_unique : forall ps ps', ps <> [] -> ps' <> [] -> Forall (fun p => written (fst p) /\ written (snd p)) ps ->
  Forall (fun p => written (fst p) /\ written (snd p)) ps' -> assignments ps = assignments ps' -> ps = ps'.
Proof.
  induction ps as [|[n v] ps IH]; intros ps' N N' F F' E; [congruence|]. destruct ps' as [|[n' v'] ps']; [congruence|].
  inversion F as [|? ? [A B] G]; subst. inversion F' as [|? ? [A' B'] G']; subst. cbn [fst snd] in *.
  assert (H61 : In 61 (js "&=%#")) by (cbn; tauto). assert (H38 : In 38 (js "&=%#")) by (cbn; tauto).
  pose proof (written_not _ _ A H61). pose proof (written_not _ _ A' H61).
  pose proof (written_not _ _ B H38). pose proof (written_not _ _ B' H38).
  destruct ps as [|q ps]; destruct ps' as [|q' ps']; rewrite ?assignments_cons in E; cbn [fst snd assignments] in E; unfold assignment in E; cbn [fst snd] in E;
    change (js "=" ++ v) with (61 :: v) in E; change (js "=" ++ v') with (61 :: v') in E;
    apply cut_unique in E; try assumption; destruct E as [<- E].
  - subst. reflexivity.
  - exfalso. subst v. apply H1. apply in_or_app. right. left. reflexivity.
  - exfalso. subst v'. apply H2. apply in_or_app. right. left. reflexivity.
  - apply cut_unique in E; [|assumption..]. destruct E as [<- E]. f_equal. apply IH; [discriminate|discriminate|assumption|assumption|exact E].
Qed.
Theorem reading_unique : forall address service ps ps', reads address service ps -> reads address service ps' -> ps = ps'.
Proof.
  intros address service ps ps' (r & E & N & F & ->) (r' & E' & N' & F' & ->). f_equal. rewrite E in E'.
  apply app_inv_head in E'. apply app_inv_head in E'. apply assignments_unique; assumption.
Qed.

(** 1e21 is a number, whose text is 1e+21. *)
Definition other_great (q : jstring) : Number :=
  if js_eqb q (js "1e21") then Other (js "1e+21") else if js_eqb q (js "1e+21") then Other (js "1e+21") else NaN.
Lemma other_great_reads : numbers_are_read_back other_great.
Proof.
  intros q. unfold other_great.
  destruct (js_eqb q (js "1e21")); [|destruct (js_eqb q (js "1e+21")); [|exact I]];
    (split; [|reflexivity]; change (number_text (Other (js "1e+21"))) with [49; 101; 43; 50; 49];
     repeat (apply Forall_cons; [split; [vm_compute; tauto|reflexivity]|]); apply Forall_nil).
Qed.
Theorem plus_sign : exists other query c address rest,
  numbers_are_read_back other /\ in_effect other query c /\ number_text (distance c) = js "1e+21"
  /\ requestAddresses other query 5150 (-46) = Ok (address :: rest)
  /\ reads address data_server (ask_reports "metars" "3" (js "1e 21;-0.46,51.5")).
Proof.
  exists other_great, (js "distance=1e21"), (mkChoice false (Other (js "1e+21"))). eexists _, _.
  split; [exact other_great_reads|]. split; [split; reflexivity|]. split; [reflexivity|]. split; [reflexivity|].
  exists (ask_reports "metars" "3" (js "1e+21;-0.46,51.5")). split; [vm_compute; reflexivity|]. split; [discriminate|]. split; [|vm_compute; reflexivity].
  assert (W : forall s, forallb (fun c => negb (existsb (N.eqb c) (js "&=%#"))) s = true -> written s).
  { intros s H c I J. rewrite forallb_forall in H. specialize (H c I).
    assert (existsb (N.eqb c) (js "&=%#") = true) as K by (apply existsb_exists; exists c; split; [exact J|apply N.eqb_refl]). rewrite K in H. discriminate H. }
  unfold ask_reports. repeat (constructor; [split; apply W; reflexivity|]). constructor.
Qed.
