(** Proofs about the requests of the summary page. *)
From Coq Require Import List String Ascii ZArith NArith Bool Permutation Lia.
From Verif Require Import Lib Prim Float Format Summary Page PageFlow SpecFlow.
Import ListNotations.
Local Open Scope string_scope.

Lemma perm3 {A : Type} (l : list A) a b c : Permutation l [a; b; c] ->
  In l [[a; b; c]; [a; c; b]; [b; a; c]; [b; c; a]; [c; a; b]; [c; b; a]].
Proof.
  intros H. assert (I : In a l) by (apply (Permutation_in a (Permutation_sym H)); left; reflexivity).
  apply in_split in I as (l1 & l2 & ->). apply Permutation_sym, Permutation_cons_app_inv in H.
  apply Permutation_length_2_inv in H as [H|H];
    (destruct l1 as [|x [|y [|z l1]]]; cbn [app] in H; try discriminate H;
      [subst l2|injection H as -> ->|injection H as -> -> ->]; cbn [In app]; try tauto).
  all: destruct l1; discriminate.
Qed.

Definition result (r : FetchResult) : option (XMLDocument * Z) :=
  match r with Response o (Some d) => Some (d, o) | _ => None end.
Lemma fetch_result r : fetchAndParseXML r = Fulfilled (result r).
Proof. destruct r as [|o [d|]]; reflexivity. Qed.
Lemma failed_result r : failed r -> result r = None.
Proof. intros [->|[o ->]]; reflexivity. Qed.

Lemma all_arrived {P D : Type} {pow : flt -> flt -> flt} {sgn : bool} {clock : Z -> Z -> Z -> Z -> Z -> Z -> Z * Z * Z}
  {distance : P -> option string -> option string -> D} {distStr : D -> string} {year month day : Z} {imperial : bool} pos m t s l :
  Permutation l [Arrived Metars m; Arrived Tafs t; Arrived Stations s] ->
  (flow pow sgn clock distance distStr year month day imperial) (PositionFound pos :: l) =
  mkFlowState ((processData pow sgn clock distance distStr year month day imperial) pos (result m) (result t) (result s) "Retreiving weather data...") Finished.
Proof.
  intros H. apply perm3 in H. unfold flow. cbn [In] in H. unfold on_flow.
  generalize (processData pow sgn clock distance distStr year month day imperial). intros proc.
  repeat (destruct H as [<-|H]; [cbn [fold_left phase html slot fill]; rewrite !fetch_result;
    cbn [phase html slot fill]; rewrite ?fetch_result; reflexivity|]).
  destruct H.
Qed.
Lemma finished {P D : Type} {pow : flt -> flt -> flt} {sgn : bool} {clock : Z -> Z -> Z -> Z -> Z -> Z -> Z * Z * Z}
  {distance : P -> option string -> option string -> D} {distStr : D -> string} {year month day : Z} {imperial : bool} es st : phase st = Finished -> fold_left (on_flow pow sgn clock distance distStr year month day imperial) es st = st.
Proof.
  intros F. induction es as [|e es IH]; [reflexivity|]. cbn [fold_left].
  replace ((on_flow pow sgn clock distance distStr year month day imperial) st e) with st; [exact IH|]. unfold on_flow. rewrite F. destruct e; reflexivity.
Qed.

Lemma data_shown {P D : Type} {pow : flt -> flt -> flt} {sgn : bool} {clock : Z -> Z -> Z -> Z -> Z -> Z -> Z * Z * Z}
  {distance : P -> option string -> option string -> D} {distStr : D -> string} {year month day : Z} {imperial : bool} pos om m ot t os s l :
  Permutation l [Arrived Metars (Response om (Some m)); Arrived Tafs (Response ot (Some t)); Arrived Stations (Response os (Some s))] ->
  html ((flow pow sgn clock distance distStr year month day imperial) (PositionFound pos :: l)) =
  displayErrors "METAR errors" (doc_errors m) ++ displayErrors "TAF errors" (doc_errors t) ++
  displayErrors "Station data errors" (doc_errors s) ++
  displayAerodromeCount (N.of_nat (List.length
    (addStationNames (AWCdataToMap (distance pos) (doc_metars m) (doc_tafs t)) (doc_stations s)))) ++
  String.concat "" (fst (displayStations (clock om) pow sgn distStr year month day imperial
    (addStationNames (AWCdataToMap (distance pos) (doc_metars m) (doc_tafs t)) (doc_stations s)))).
Proof. intros H. rewrite (all_arrived _ _ _ _ _ H). reflexivity. Qed.
Lemma data_lost {P D : Type} {pow : flt -> flt -> flt} {sgn : bool} {clock : Z -> Z -> Z -> Z -> Z -> Z -> Z * Z * Z}
  {distance : P -> option string -> option string -> D} {distStr : D -> string} {year month day : Z} {imperial : bool} pos m t s l l' :
  Permutation l [Arrived Metars m; Arrived Tafs t; Arrived Stations s] -> failed m \/ failed t \/ failed s ->
  html ((flow pow sgn clock distance distStr year month day imperial) (PositionFound pos :: l ++ l')) = "Retreiving weather data...".
Proof.
  intros H F. change (PositionFound pos :: l ++ l')%list with ((PositionFound pos :: l) ++ l')%list.
  unfold flow. rewrite fold_left_app. pose proof (@all_arrived P D pow sgn clock distance distStr year month day imperial pos _ _ _ _ H) as A. unfold flow in A. rewrite A.
  rewrite (finished l') by reflexivity. cbn [html]. unfold processData.
  destruct F as [F|[F|F]]; rewrite (failed_result _ F); [reflexivity| |]; destruct (result m) as [[? ?]|]; try reflexivity.
  destruct (result t) as [[? ?]|]; reflexivity.
Qed.

(** Invariant: nothing is shown before all answers are there, and no promise is rejected *)
Definition fine (v : Slot) : Prop := match v with Some Rejected => False | _ => True end.
Definition start_ok (w : string) : Prop := w <> "Unable to retreive weather data".
Definition good {P : Type} (st : FlowState P) : Prop :=
  match phase st with
  | Requesting _ m t s => html st = "Retreiving weather data..." /\ fine m /\ fine t /\ fine s
  | _ => start_ok (html st)
  end.
Lemma errors_head caption e : displayErrors caption e = "" \/ exists r, displayErrors caption e = String "<" r.
Proof. unfold displayErrors. destruct (fold_left _ _ _) as [r []]; [right; eexists; reflexivity|left; reflexivity]. Qed.
Lemma head_not r : start_ok (String "<" r).
Proof. unfold start_ok. discriminate. Qed.
Lemma proc_ok {P D : Type} {pow : flt -> flt -> flt} {sgn : bool} {clock : Z -> Z -> Z -> Z -> Z -> Z -> Z * Z * Z}
  {distance : P -> option string -> option string -> D} {distStr : D -> string} {year month day : Z} {imperial : bool} pos m t s : start_ok ((processData pow sgn clock distance distStr year month day imperial) pos m t s "Retreiving weather data...").
Proof.
  unfold processData. destruct m as [[m om]|]; [|discriminate]. destruct t as [[t ot]|]; [|discriminate].
  destruct s as [[s os]|]; [|discriminate].
  destruct (errors_head "METAR errors" (doc_errors m)) as [->|[r ->]]; [|apply head_not].
  destruct (errors_head "TAF errors" (doc_errors t)) as [->|[r ->]]; [|apply head_not].
  destruct (errors_head "Station data errors" (doc_errors s)) as [->|[r ->]]; [|apply head_not].
  apply head_not.
Qed.
Lemma good_step {P D : Type} {pow : flt -> flt -> flt} {sgn : bool} {clock : Z -> Z -> Z -> Z -> Z -> Z -> Z * Z * Z}
  {distance : P -> option string -> option string -> D} {distStr : D -> string} {year month day : Z} {imperial : bool} st e : good st -> good ((on_flow pow sgn clock distance distStr year month day imperial) st e).
Proof.
  unfold good, on_flow. destruct st as [h [|pos m t s|]]; cbn [phase html].
  - destruct e; cbn [phase html]; intros G; try exact G; [repeat split|discriminate].
  - intros (-> & M & T & S). destruct e as [q| |src r]; cbn [phase html]; try (repeat split; assumption).
    rewrite fetch_result.
    destruct src; cbn [slot fill]; destruct m as [[m|]|], t as [[t|]|], s as [[s|]|]; cbn [fine] in *; try contradiction;
      cbn [phase html fine]; try (repeat split; exact I); apply proc_ok.
  - intros G. destruct e; exact G.
Qed.
Lemma good_run {P D : Type} {pow : flt -> flt -> flt} {sgn : bool} {clock : Z -> Z -> Z -> Z -> Z -> Z -> Z * Z * Z}
  {distance : P -> option string -> option string -> D} {distStr : D -> string} {year month day : Z} {imperial : bool} es : good ((flow pow sgn clock distance distStr year month day imperial) es).
Proof.
  unfold flow. assert (G : @good P (mkFlowState "Geolocating..." Locating)) by (unfold good, start_ok; cbn; discriminate).
  revert G. generalize (@mkFlowState P "Geolocating..." Locating). induction es as [|e es IH]; intros st G; [exact G|].
  cbn [fold_left]. apply IH, good_step, G.
Qed.
Lemma never_told {P D : Type} {pow : flt -> flt -> flt} {sgn : bool} {clock : Z -> Z -> Z -> Z -> Z -> Z -> Z * Z * Z}
  {distance : P -> option string -> option string -> D} {distStr : D -> string} {year month day : Z} {imperial : bool} es : html ((flow pow sgn clock distance distStr year month day imperial) es) <> "Unable to retreive weather data".
Proof.
  pose proof (@good_run P D pow sgn clock distance distStr year month day imperial es) as G. unfold good in G. destruct (phase ((flow pow sgn clock distance distStr year month day imperial) es)); [exact G| |exact G].
  destruct G as [-> _]. discriminate.
Qed.

Lemma not_located {P D : Type} {pow : flt -> flt -> flt} {sgn : bool} {clock : Z -> Z -> Z -> Z -> Z -> Z -> Z * Z * Z}
  {distance : P -> option string -> option string -> D} {distStr : D -> string} {year month day : Z} {imperial : bool} l : (forall p, ~ In (PositionFound p) l) -> ~ In PositionFailed l -> (flow pow sgn clock distance distStr year month day imperial) l = mkFlowState "Geolocating..." Locating.
Proof.
  unfold flow. induction l as [|e l IH]; intros H F; [reflexivity|]. cbn [fold_left].
  replace (on_flow _ _ _ _ _ _ _ _ _ _ e) with (@mkFlowState P "Geolocating..." Locating).
  - apply IH; [intros p I; apply (H p); right; exact I|intros I; apply F; right; exact I].
  - destruct e as [q| |]; [exfalso; apply (H q); left; reflexivity|exfalso; apply F; left; reflexivity|reflexivity].
Qed.
Lemma position_failed {P D : Type} {pow : flt -> flt -> flt} {sgn : bool} {clock : Z -> Z -> Z -> Z -> Z -> Z -> Z * Z * Z}
  {distance : P -> option string -> option string -> D} {distStr : D -> string} {year month day : Z} {imperial : bool} l l' : (forall p, ~ In (PositionFound p) l) ->
  html ((flow pow sgn clock distance distStr year month day imperial) (l ++ PositionFailed :: l')) = "Unable to acquire position".
Proof.
  intros H. assert (X : exists l1 l2, (l ++ PositionFailed :: l')%list = (l1 ++ PositionFailed :: l2)%list
    /\ (forall p, ~ In (PositionFound p) l1) /\ ~ In PositionFailed l1).
  { induction l as [|e l IH]; [exists [], l'; repeat split; auto|].
    destruct e as [q| |src r].
    - exfalso. apply (H q). left. reflexivity.
    - exists [], (l ++ PositionFailed :: l')%list. repeat split; auto.
    - destruct IH as (l1 & l2 & E & A & B); [intros p I; apply (H p); right; exact I|].
      exists (Arrived src r :: l1), l2. cbn [app]. rewrite E. split; [reflexivity|]. split.
      + intros p [I|I]; [discriminate|exact (A p I)].
      + intros [I|I]; [discriminate|exact (B I)]. }
  destruct X as (l1 & l2 & -> & A & B). unfold flow. rewrite fold_left_app.
  pose proof (@not_located P D pow sgn clock distance distStr year month day imperial l1 A B) as N. unfold flow in N. rewrite N. cbn [fold_left].
  rewrite finished by reflexivity. reflexivity.
Qed.

(** While an answer is missing *)
Definition missing {P : Type} (src : Source) (st : FlowState P) : Prop :=
  match phase st with
  | Requesting _ m t s => slot src m t s = None /\ html st = "Retreiving weather data..." /\ fine m /\ fine t /\ fine s
  | _ => False
  end.
Lemma still_missing {P D : Type} {pow : flt -> flt -> flt} {sgn : bool} {clock : Z -> Z -> Z -> Z -> Z -> Z -> Z * Z * Z}
  {distance : P -> option string -> option string -> D} {distStr : D -> string} {year month day : Z} {imperial : bool} src st e : (forall r, e <> Arrived src r) -> missing src st -> missing src ((on_flow pow sgn clock distance distStr year month day imperial) st e).
Proof.
  intros N. unfold missing, on_flow. destruct st as [h [|pos m t s|]]; cbn [phase html]; [intros []| |intros []].
  intros (E & -> & M & T & S). destruct e as [q| |src' r]; cbn [phase html]; try (repeat split; assumption).
  rewrite fetch_result.
  destruct src, src'; try (exfalso; exact (N r eq_refl)); cbn [slot fill] in *;
    destruct m as [[m|]|], t as [[t|]|], s as [[s|]|]; cbn [fine] in *; try contradiction; try discriminate E;
    cbn [phase html fine slot]; repeat split.
Qed.
Lemma waiting {P D : Type} {pow : flt -> flt -> flt} {sgn : bool} {clock : Z -> Z -> Z -> Z -> Z -> Z -> Z * Z * Z}
  {distance : P -> option string -> option string -> D} {distStr : D -> string} {year month day : Z} {imperial : bool} pos src l : (forall r, ~ In (Arrived src r) l) ->
  html ((flow pow sgn clock distance distStr year month day imperial) (PositionFound pos :: l)) = "Retreiving weather data...".
Proof.
  intros H. unfold flow. cbn [fold_left].
  assert (G : forall st, missing src st -> html (fold_left (on_flow pow sgn clock distance distStr year month day imperial) l st) = "Retreiving weather data...").
  { induction l as [|e l IH]; intros st M; cbn [fold_left].
    - unfold missing in M. destruct (phase st); [destruct M|apply M|destruct M].
    - apply IH; [intros r I; apply (H r); right; exact I|]. apply still_missing; [|exact M].
      intros r ->. apply (H r). left. reflexivity. }
  apply G. unfold missing. cbn. destruct src; repeat split.
Qed.

(** Texts *)
Definition errors_step (acc : string * bool) (value : option string) : string * bool :=
  match value with Some m => (fst acc ++ m ++ "<br>", true) | None => acc end.
Lemma errors_flat errors : forall acc, fold_left (fun acc e => fold_left errors_step e acc) errors acc
  = fold_left errors_step (List.concat errors) acc.
Proof.
  induction errors as [|e errors IH]; intros acc; [reflexivity|]. cbn [fold_left List.concat].
  rewrite fold_left_app. apply IH.
Qed.
Lemma errors_acc l : forall t b, fold_left errors_step l (t, b) =
  (t ++ String.concat "" (map (fun m => m ++ "<br>") (flat_map (fun v => match v with Some m => [m] | None => [] end) l)),
   b || match flat_map (fun v => match v with Some m => [m] | None => [] end) l with [] => false | _ => true end).
Proof.
  induction l as [|[m|] l IH]; intros t b; cbn [fold_left flat_map app map].
  - cbn. rewrite app_empty_r, orb_false_r. reflexivity.
  - unfold errors_step at 2. cbn [fst]. rewrite IH. f_equal; [|rewrite orb_true_r; reflexivity].
    rewrite app_assoc_s. f_equal.
    destruct (map _ (flat_map _ l)) as [|x r]; cbn [String.concat]; [rewrite app_empty_r; reflexivity|reflexivity].
  - unfold errors_step at 2. apply IH.
Qed.
Lemma errors_shown caption d : displayErrors caption (doc_errors d) = errors_item caption d.
Proof.
  unfold displayErrors. change (fold_left _ (doc_errors d) ("", false)) with
    (fold_left (fun acc e => fold_left errors_step e acc) (doc_errors d) ("", false)).
  rewrite errors_flat, errors_acc. unfold errors_item, messages. destruct (flat_map _ (List.concat (doc_errors d))); reflexivity.
Qed.
Lemma count_shown n : displayAerodromeCount n = count_item n.
Proof.
  unfold displayAerodromeCount, count_item, count_words. destruct n as [|[p|p|]]; cbn [N.eqb N.ltb N.compare Pos.eqb];
    rewrite ?app_assoc_s; reflexivity.
Qed.
Lemma all_shown {P D : Type} pow sgn clock (distance : P -> option string -> option string -> D) distStr year month day imperial
  pos om m ot t os s data items e l :
  Permutation l [Arrived Metars (Response om (Some m)); Arrived Tafs (Response ot (Some t)); Arrived Stations (Response os (Some s))] ->
  data = addStationNames (AWCdataToMap (distance pos) (doc_metars m) (doc_tafs t)) (doc_stations s) ->
  displayStations (clock om) pow sgn distStr year month day imperial data = (items, e) ->
  html (flow pow sgn clock distance distStr year month day imperial (PositionFound pos :: l)) =
  errors_item "METAR errors" m ++ errors_item "TAF errors" t ++ errors_item "Station data errors" s ++
  count_item (N.of_nat (List.length data)) ++ String.concat "" items.
Proof.
  intros H -> E. rewrite (data_shown _ _ _ _ _ _ _ _ H), E, !errors_shown, count_shown. reflexivity.
Qed.
