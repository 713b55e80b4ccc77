(** Proofs about the page of explain. *)
From Coq Require Import List String Ascii NArith ZArith Bool Lia ZifyBool ZifyN Arith.
From Verif Require Import Lib Prim Float Explain ExplainPage SpecLink.
Import ListNotations.
Local Open Scope N_scope.

Ltac Zify.zify_post_hook ::= Z.to_euclidean_division_equations.

Lemma units_utf16 v u : character v -> units v u -> u = utf16 v.
Proof.
  unfold character, utf16. intros C U. destruct U as [v L|v h l -> H L].
  - destruct (v <? 65536) eqn:E; reflexivity || lia.
  - destruct (65536 + 1024 * h + l <? 65536) eqn:E; [lia|]. repeat f_equal; lia.
Qed.
Lemma utf16_units v : character v -> units v (utf16 v).
Proof.
  unfold character, utf16. intros C. destruct (v <? 65536) eqn:E; constructor; lia.
Qed.
Lemma is_scalar_spec v : is_scalar v = true <-> character v.
Proof. unfold is_scalar, character. lia. Qed.

Definition enc1 (v : N) : jstring := if unescaped v then [v] else flat_map percent (utf8 v).

Lemma unescaped_small v : unescaped v = true -> v < 128 /\ v <> 37.
Proof. unfold unescaped. cbn [existsb]. lia. Qed.

Lemma encode_one v s : character v ->
  encodeURIComponent (utf16 v ++ s) = option_map (app (enc1 v)) (encodeURIComponent s).
Proof.
  intros C. unfold character in C. unfold utf16, enc1. destruct (v <? 65536) eqn:E.
  - cbn [app encodeURIComponent]. destruct (unescaped v) eqn:U; [reflexivity|].
    replace (is_low v) with false by (unfold is_low; lia).
    replace (is_high v) with false by (unfold is_high; lia). reflexivity.
  - cbn [app encodeURIComponent].
    destruct (unescaped v) eqn:U; [apply unescaped_small in U; lia|].
    destruct (unescaped (55296 + (v - 65536) / 1024)) eqn:U'; [apply unescaped_small in U'; lia|].
    replace (is_low (55296 + (v - 65536) / 1024)) with false by (unfold is_low; lia).
    replace (is_high (55296 + (v - 65536) / 1024)) with true by (unfold is_high; lia).
    replace (is_low (56320 + (v - 65536) mod 1024)) with true by (unfold is_low; lia).
    replace (pair_value (55296 + (v - 65536) / 1024) (56320 + (v - 65536) mod 1024)) with v by (unfold pair_value; lia).
    reflexivity.
Qed.

Lemma hex_round n : n < 16 -> hex_value (hex_digit n) = Some n.
Proof.
  intros H. unfold hex_digit, hex_value. destruct (n <? 10) eqn:E.
  - replace ((48 <=? 48 + n) && (48 + n <=? 57)) with true by lia. f_equal. lia.
  - replace ((48 <=? 55 + n) && (55 + n <=? 57)) with false by lia.
    replace ((65 <=? 55 + n) && (55 + n <=? 70)) with true by lia. f_equal. lia.
Qed.
Lemma octet_round b r : b < 256 -> take_octet (percent b ++ r) = Some (b, r).
Proof.
  intros H. unfold percent, take_octet. cbn [app]. rewrite N.eqb_refl, !hex_round by lia. do 2 f_equal. lia.
Qed.

Lemma more_round n v b r : 128 <= b <= 191 ->
  take_more (S n) v (percent b ++ r) = take_more n (v * 64 + (b - 128)) r.
Proof.
  intros H. cbn [take_more]. rewrite octet_round by lia.
  replace ((128 <=? b) && (b <=? 191)) with true by lia. reflexivity.
Qed.

Lemma percent_head b r : percent b ++ r = 37 :: hex_digit (b / 16) :: hex_digit (b mod 16) :: r.
Proof. reflexivity. Qed.

Lemma decode_octets fuel b r :
  b < 256 ->
  decode_loop (S fuel) (percent b ++ r) =
  match take_character b r with
  | None => None
  | Some (v, r) => option_map (app (utf16 v)) (decode_loop fuel r)
  end.
Proof.
  intros H. rewrite percent_head. cbn [decode_loop]. rewrite <- percent_head, octet_round by exact H. reflexivity.
Qed.

Lemma character_round v r : character v -> 128 <= v ->
  exists b t, utf8 v = b :: t /\ b < 256 /\ take_character b (flat_map percent t ++ r) = Some (v, r).
Proof.
  intros C L. pose proof C as C'. apply is_scalar_spec in C'. unfold character in C. unfold utf8.
  replace (v <? 128) with false by lia.
  destruct (v <? 2048) eqn:E2; [|destruct (v <? 65536) eqn:E3].
  - eexists _, _. split; [reflexivity|]. split; [lia|].
    cbn [flat_map]. rewrite app_nil_r. unfold take_character.
    replace (192 + v / 64 <? 128) with false by lia. replace (192 + v / 64 <? 192) with false by lia.
    replace (192 + v / 64 <? 224) with true by lia. cbv zeta iota beta.
    rewrite more_round by lia. cbn [take_more].
    replace ((192 + v / 64 - 192) * 64 + (128 + v mod 64 - 128)) with v by lia.
    rewrite C'. replace (128 <=? v) with true by lia. reflexivity.
  - eexists _, _. split; [reflexivity|]. split; [lia|].
    cbn [flat_map]. rewrite app_nil_r. rewrite <- app_assoc. unfold take_character.
    replace (224 + v / 4096 <? 128) with false by lia. replace (224 + v / 4096 <? 192) with false by lia.
    replace (224 + v / 4096 <? 224) with false by lia. replace (224 + v / 4096 <? 240) with true by lia.
    cbv zeta iota beta. rewrite !more_round by lia. cbn [take_more].
    match goal with |- context [(_ <=? ?w) && is_scalar ?w] => replace w with v by lia end.
    rewrite C'. replace (2048 <=? v) with true by lia. reflexivity.
  - eexists _, _. split; [reflexivity|]. split; [lia|].
    cbn [flat_map]. rewrite app_nil_r. rewrite <- !app_assoc. unfold take_character.
    replace (240 + v / 262144 <? 128) with false by lia. replace (240 + v / 262144 <? 192) with false by lia.
    replace (240 + v / 262144 <? 224) with false by lia. replace (240 + v / 262144 <? 240) with false by lia.
    replace (240 + v / 262144 <? 248) with true by lia.
    cbv zeta iota beta. rewrite !more_round by lia. cbn [take_more].
    match goal with |- context [(_ <=? ?w) && is_scalar ?w] => replace w with v by lia end.
    rewrite C'. replace (65536 <=? v) with true by lia. reflexivity.
Qed.

Lemma decode_one fuel v r : character v ->
  decode_loop (S fuel) (enc1 v ++ r) = option_map (app (utf16 v)) (decode_loop fuel r).
Proof.
  intros C. unfold enc1. destruct (unescaped v) eqn:U.
  - apply unescaped_small in U. cbn [app decode_loop]. replace (v =? 37) with false by lia.
    unfold utf16. replace (v <? 65536) with true by lia. reflexivity.
  - destruct (v <? 128) eqn:E.
    + unfold utf8. rewrite E. cbn [flat_map]. rewrite app_nil_r, decode_octets by lia.
      unfold take_character. rewrite E. reflexivity.
    + destruct (character_round v r C ltac:(lia)) as (b & t & -> & B & T).
      cbn [flat_map]. rewrite <- app_assoc, decode_octets by exact B. rewrite T. reflexivity.
Qed.

Lemma text_utf16 vs s : text_of vs s -> Forall character vs /\ s = flat_map utf16 vs.
Proof.
  induction 1 as [|v vs u s C U T [IHC IHs]]; [split; [constructor|reflexivity]|].
  split; [constructor; assumption|]. cbn [flat_map]. rewrite (units_utf16 _ _ C U), IHs. reflexivity.
Qed.
Lemma utf16_text vs : Forall character vs -> text_of vs (flat_map utf16 vs).
Proof. induction 1; cbn [flat_map]; constructor; auto using utf16_units. Qed.

Lemma encode_text vs : Forall character vs -> encodeURIComponent (flat_map utf16 vs) = Some (flat_map enc1 vs).
Proof.
  induction 1 as [|v vs C F IH]; [reflexivity|]. cbn [flat_map]. rewrite encode_one, IH by exact C. reflexivity.
Qed.

Lemma enc1_nonempty v : (1 <= List.length (enc1 v))%nat.
Proof.
  unfold enc1. destruct (unescaped v); [cbn; lia|]. unfold utf8.
  destruct (v <? 128), (v <? 2048), (v <? 65536); cbn; lia.
Qed.
Lemma decode_text vs : Forall character vs -> forall fuel, (List.length (flat_map enc1 vs) < fuel)%nat ->
  decode_loop fuel (flat_map enc1 vs) = Some (flat_map utf16 vs).
Proof.
  induction 1 as [|v vs C F IH]; intros fuel L; (destruct fuel as [|fuel]; [lia|]); [reflexivity|].
  cbn [flat_map] in *. rewrite decode_one by exact C. rewrite IH; [reflexivity|].
  rewrite app_length in L. pose proof (enc1_nonempty v). lia.
Qed.
Lemma round_trip vs : Forall character vs -> decodeURIComponent (flat_map enc1 vs) = Some (flat_map utf16 vs).
Proof. intros F. unfold decodeURIComponent. apply decode_text; [exact F|lia]. Qed.

(** Only texts can be encoded. *)
Lemma encoded_text n : forall s f, (List.length s <= n)%nat -> Forall (fun c => c < 65536) s ->
  encodeURIComponent s = Some f -> exists vs, text_of vs s.
Proof.
  induction n as [|n IH]; intros [|c r] f L F E; try (exists []; constructor); try (cbn in L; lia).
  cbn [encodeURIComponent] in E. cbn [List.length] in L. apply Forall_cons_iff in F as [Fc F].
  assert (One : forall g, encodeURIComponent r = Some g -> character c -> exists vs, text_of vs (c :: r)).
  { intros g Eg C. destruct (IH r g) as [vs T]; [lia|exact F|exact Eg|]. exists (c :: vs).
    change (c :: r) with ([c] ++ r). constructor; [exact C|constructor; exact Fc|exact T]. }
  destruct (unescaped c) eqn:U.
  - destruct (encodeURIComponent r) eqn:Er; [|discriminate]. apply (One _ eq_refl). apply unescaped_small in U.
    unfold character. lia.
  - destruct (is_low c) eqn:Lo; [discriminate|]. destruct (is_high c) eqn:Hi.
    + destruct r as [|d r]; [discriminate|]. destruct (is_low d) eqn:Lo'; [|discriminate].
      destruct (encodeURIComponent r) eqn:Er; [|discriminate].
      apply Forall_cons_iff in F as [Fd F]. cbn [List.length] in L.
      destruct (IH r j) as [vs T]; [lia|exact F|exact Er|]. exists (pair_value c d :: vs).
      unfold is_high, is_low, pair_value in *.
      change (c :: d :: r) with ([c; d] ++ r). constructor; [unfold character; lia| |exact T].
      replace [c; d] with [55296 + (c - 55296); 56320 + (d - 56320)] by (repeat f_equal; lia).
      constructor; lia.
    + destruct (encodeURIComponent r) eqn:Er; [|discriminate]. apply (One _ eq_refl).
      unfold is_high, is_low, character in *. lia.
Qed.

(** Bytes *)
Lemma bytes_utf8 v u : v < 1114112 -> bytes v u -> u = utf8 v.
Proof.
  intros L B. unfold utf8. destruct B as [v H|v a b -> H A B|v a b c Hv H A B C|v a b c d Hv H A B C D].
  - replace (v <? 128) with true by lia. reflexivity.
  - replace (64 * a + b <? 128) with false by lia. replace (64 * a + b <? 2048) with true by lia. repeat f_equal; lia.
  - replace (v <? 128) with false by lia. replace (v <? 2048) with false by lia. replace (v <? 65536) with true by lia.
    repeat f_equal; lia.
  - replace (v <? 128) with false by lia. replace (v <? 2048) with false by lia. replace (v <? 65536) with false by lia.
    repeat f_equal; lia.
Qed.
Lemma to_utf8_one v s : character v -> to_utf8 (utf16 v ++ s) = (utf8 v ++ to_utf8 s)%list.
Proof.
  unfold character, utf16. intros C. destruct (v <? 65536) eqn:E; cbn [app to_utf8].
  - replace (is_high v) with false by (unfold is_high; lia). reflexivity.
  - replace (is_high (55296 + (v - 65536) / 1024)) with true by (unfold is_high; lia).
    replace (pair_value (55296 + (v - 65536) / 1024) (56320 + (v - 65536) mod 1024)) with v by (unfold pair_value; lia).
    reflexivity.
Qed.
Lemma to_utf8_text vs : Forall character vs -> to_utf8 (flat_map utf16 vs) = flat_map utf8 vs.
Proof. induction 1 as [|v vs C F IH]; [reflexivity|]. cbn [flat_map]. rewrite to_utf8_one, IH by exact C. reflexivity. Qed.
Lemma bytes_of_utf8 vs b : Forall character vs -> bytes_of vs b -> b = flat_map utf8 vs.
Proof.
  intros F B. induction B as [|v vs u s U B IH]; [reflexivity|]. apply Forall_cons_iff in F as [C F].
  cbn [flat_map]. rewrite (IH F). f_equal. apply bytes_utf8; [unfold character in C; lia|exact U].
Qed.
Lemma utf8_nonzero v : v <> 0 -> Forall (fun b => b <> 0) (utf8 v).
Proof.
  intros H. unfold utf8. destruct (v <? 128), (v <? 2048), (v <? 65536); repeat constructor; lia.
Qed.
Lemma c_string_app l r : Forall (fun b => b <> 0) l -> c_string (l ++ r) = (byte_string l ++ c_string r)%string.
Proof.
  unfold byte_string. induction 1 as [|b l H F IH]; [reflexivity|]. cbn [app c_string map string_of_list_ascii append].
  replace (b =? 0) with false by lia. rewrite IH. reflexivity.
Qed.
Lemma nonzero_bytes vs : ~ In 0 vs -> Forall (fun b => b <> 0) (flat_map utf8 vs).
Proof.
  induction vs as [|v vs IH]; intros H; cbn [flat_map]; [constructor|]. apply Forall_app. split.
  - apply utf8_nonzero. intros ->. apply H. left. reflexivity.
  - apply IH. intros I. apply H. right. exact I.
Qed.

(** The ends of lines *)
Lemma box_value_idem n : forall s, (List.length s <= n)%nat -> box_value (box_value s) = box_value s.
Proof.
  induction n as [|n IH]; intros [|c r] L; try reflexivity; cbn [List.length] in L; [lia|].
  cbn [box_value]. destruct (c =? 13) eqn:E.
  - destruct r as [|d r]; [reflexivity|]. destruct (d =? 10) eqn:D.
    + cbn [box_value N.eqb Pos.eqb]. rewrite IH by (cbn [List.length] in L; lia). reflexivity.
    + cbn [box_value N.eqb Pos.eqb]. change (if d =? 13 then _ else _) with (box_value (d :: r)) at 1.
      rewrite IH by lia. reflexivity.
  - cbn [box_value]. rewrite E, IH by lia. reflexivity.
Qed.
Lemma box_value_fixed s : box_value (box_value s) = box_value s.
Proof. apply (box_value_idem (List.length s)). lia. Qed.
Lemma box_value_same s : ~ In 13 s -> box_value s = s.
Proof.
  induction s as [|c r IH]; intros H; [reflexivity|]. cbn [box_value].
  replace (c =? 13) with false by (symmetry; apply N.eqb_neq; intros ->; apply H; left; reflexivity).
  f_equal. apply IH. intros I. apply H. right. exact I.
Qed.

(** Histories *)
Lemma events_app pow sgn es fs st :
  on_events pow sgn (es ++ fs) st = (let! st' := on_events pow sgn es st in on_events pow sgn fs st').
Proof.
  revert st. induction es as [|e es IH]; intros st; [reflexivity|]. cbn [app on_events].
  destruct (on_event pow sgn e st); cbn [bind]; [apply IH|reflexivity].
Qed.
Definition settled (st : PageState) : Prop := box_value (box st) = box st.
Lemma explain_settled pow sgn st st' : settled st -> page_explain pow sgn st = Ok st' ->
  settled st' /\ box st' = box st.
Proof.
  unfold page_explain, settled. intros S. destruct (encodeURIComponent (box st)).
  - destruct (explain pow sgn _); cbn [bind]; intros [= <-]. cbn. auto.
  - intros [= <-]. cbn. auto.
Qed.
Lemma event_settled pow sgn e st st' : settled st -> on_event pow sgn e st = Ok st' -> settled st'.
Proof.
  intros S. destruct e as [| |text]; cbn [on_event]; intros E.
  - injection E as <-. unfold getInputFromHash. destruct (fragment st) as [|c f].
    + destruct (encodeURIComponent sampleReportStr); unfold settled; cbn [box]; apply box_value_fixed.
    + destruct (decodeURIComponent (c :: f)); [|exact S]. unfold settled. cbn [box]. apply box_value_fixed.
  - apply (explain_settled _ _ _ _ S E).
  - apply explain_settled in E; [apply E|]. unfold settled. cbn [box]. apply box_value_fixed.
Qed.
Lemma events_settled pow sgn es : forall st st', settled st -> on_events pow sgn es st = Ok st' -> settled st'.
Proof.
  induction es as [|e es IH]; intros st st' S E; cbn [on_events] in E; [injection E as <-; exact S|].
  destruct (on_event pow sgn e st) as [st1|] eqn:E1; cbn [bind] in E; [|discriminate].
  apply (IH st1); [|exact E]. apply (event_settled _ _ _ _ _ S E1).
Qed.

(** What the state is after the last event *)
Lemma last_event pow sgn es e f st : e <> Loaded -> on_events pow sgn (es ++ [e]) (new_page f) = Ok st ->
  exists st0, settled st0 /\ page_explain pow sgn st0 = Ok st /\ box st = box st0 /\ settled st
    /\ (forall text, e = Edited text -> box st0 = box_value text)
    /\ (forall st1, on_events pow sgn es (new_page f) = Ok st1 -> fragment st0 = fragment st1).
Proof.
  intros He E. rewrite events_app in E. destruct (on_events pow sgn es (new_page f)) as [st1|] eqn:E1; [|discriminate].
  cbn [bind on_events] in E. destruct (on_event pow sgn e st1) as [st2|] eqn:E2; [|discriminate].
  cbn [bind] in E. injection E as <-.
  assert (S1 : settled st1) by (apply (events_settled _ _ _ _ _ (eq_refl _ : settled (new_page f)) E1)).
  destruct e as [| |text]; [congruence| |]; cbn [on_event] in E2.
  - exists st1. destruct (explain_settled _ _ _ _ S1 E2). repeat split; auto; [discriminate|]. intros st3 [= <-]. reflexivity.
  - eexists. assert (S2 : settled (mkPageState (box_value text) (fragment st1) (shown st1)))
      by (unfold settled; cbn [box]; apply box_value_fixed).
    destruct (explain_settled _ _ _ _ S2 E2). split; [exact S2|]. repeat split; auto.
    + intros t [= <-]. reflexivity.
    + intros st3 [= <-]. reflexivity.
Qed.

Lemma link pow sgn es e f0 st vs : e <> Loaded ->
  on_events pow sgn (es ++ [e]) (new_page f0) = Ok st -> text_of vs (box st) -> vs <> [] ->
  on_events pow sgn [Loaded; Started] (new_page (fragment st)) = Ok st.
Proof.
  intros He E T N. destruct (last_event _ _ _ _ _ _ He E) as (st0 & S0 & P & B & S & _).
  apply text_utf16 in T as [F T]. unfold page_explain in P. rewrite <- B, T, encode_text in P by exact F.
  destruct (explain pow sgn _) as [t|] eqn:X; cbn [bind] in P; [|discriminate].
  assert (D : decodeURIComponent (fragment st) = Some (box st)).
  { injection P as <-. cbn [box fragment]. rewrite round_trip by exact F. reflexivity. }
  assert (NE : fragment st <> []).
  { injection P as <-. cbn [fragment]. destruct vs as [|v vs]; [congruence|]. cbn [flat_map].
    pose proof (enc1_nonempty v). destruct (enc1 v); [cbn in *; lia|discriminate]. }
  cbn [on_events on_event bind]. unfold getInputFromHash, new_page. cbn [fragment box shown].
  destruct (fragment st) as [|c r] eqn:Fr; [congruence|]. rewrite D.
  unfold settled in S. rewrite S. unfold page_explain. cbn [box fragment]. rewrite T, encode_text by exact F.
  rewrite X. cbn [bind]. exact P.
Qed.

Lemma hex_address n : n < 16 -> address_character (hex_digit n).
Proof.
  intros H. unfold address_character. split; [|unfold hex_digit; destruct (n <? 10) eqn:E; lia].
  assert (A : forallb (fun k => if in_dec ascii_dec (ascii_of_N (hex_digit k)) (list_ascii_of_string
    "ABCDEFGHIJKLMNOPQRSTUVWXYZabcdefghijklmnopqrstuvwxyz0123456789-_.!~*'()%") then true else false)
    (map N.of_nat (seq 0 16)) = true) by (vm_compute; reflexivity).
  rewrite forallb_forall in A. specialize (A n). destruct (in_dec _ _ _) as [I|]; [exact I|].
  exfalso. discriminate A. rewrite <- (N2Nat.id n). apply in_map, in_seq. lia.
Qed.
Lemma percent_address b : b < 256 -> Forall address_character (percent b).
Proof.
  intros H. unfold percent. constructor; [split; [vm_compute; tauto|reflexivity]|].
  constructor; [apply hex_address; lia|]. constructor; [apply hex_address; lia|constructor].
Qed.
Lemma unescaped_address v : unescaped v = true -> address_character v.
Proof.
  intros U. pose proof (unescaped_small _ U) as [L _]. split; [|exact L].
  assert (A : forallb (fun k => if unescaped k then if in_dec ascii_dec (ascii_of_N k) (list_ascii_of_string
    "ABCDEFGHIJKLMNOPQRSTUVWXYZabcdefghijklmnopqrstuvwxyz0123456789-_.!~*'()%") then true else false else true)
    (map N.of_nat (seq 0 128)) = true) by (vm_compute; reflexivity).
  rewrite forallb_forall in A. specialize (A v). rewrite U in A. destruct (in_dec _ _ _) as [I|]; [exact I|].
  exfalso. discriminate A. rewrite <- (N2Nat.id v). apply in_map, in_seq. lia.
Qed.
Lemma utf8_small v : v < 1114112 -> Forall (fun b => b < 256) (utf8 v).
Proof.
  intros H. unfold utf8. destruct (v <? 128) eqn:E1; [repeat constructor; lia|].
  destruct (v <? 2048) eqn:E2; [repeat constructor; lia|].
  destruct (v <? 65536) eqn:E3; repeat constructor; lia.
Qed.
Lemma enc1_address v : character v -> Forall address_character (enc1 v).
Proof.
  intros C. unfold enc1. destruct (unescaped v) eqn:U; [constructor; [apply unescaped_address, U|constructor]|].
  assert (B : Forall (fun b => b < 256) (utf8 v)) by (apply utf8_small; unfold character in C; lia).
  induction B; cbn [flat_map]; [constructor|]. apply Forall_app. auto using percent_address.
Qed.

Lemma address pow sgn es e f0 st vs : e <> Loaded ->
  on_events pow sgn (es ++ [e]) (new_page f0) = Ok st -> text_of vs (box st) ->
  Forall address_character (fragment st).
Proof.
  intros He E T. destruct (last_event _ _ _ _ _ _ He E) as (st0 & S0 & P & B & S & _).
  apply text_utf16 in T as [F T]. unfold page_explain in P. rewrite <- B, T, encode_text in P by exact F.
  destruct (explain pow sgn _) as [t|] eqn:X; cbn [bind] in P; [|discriminate].
  injection P as <-. cbn [fragment]. clear - F. induction F; cbn [flat_map]; [constructor|].
  apply Forall_app. auto using enc1_address.
Qed.

Lemma distinct pow sgn pow' sgn' es e f0 st es' e' f0' st' vs vs' : e <> Loaded -> e' <> Loaded ->
  on_events pow sgn (es ++ [e]) (new_page f0) = Ok st -> text_of vs (box st) ->
  on_events pow' sgn' (es' ++ [e']) (new_page f0') = Ok st' -> text_of vs' (box st') ->
  fragment st = fragment st' -> box st = box st'.
Proof.
  intros He He' E T E' T' Q.
  destruct (last_event _ _ _ _ _ _ He E) as (st0 & _ & P & B & _).
  destruct (last_event _ _ _ _ _ _ He' E') as (st0' & _ & P' & B' & _).
  apply text_utf16 in T as [F T]. apply text_utf16 in T' as [F' T'].
  unfold page_explain in P, P'. rewrite <- B, T, encode_text in P by exact F. rewrite <- B', T', encode_text in P' by exact F'.
  destruct (explain pow sgn _); cbn [bind] in P; [|discriminate].
  destruct (explain pow' sgn' _); cbn [bind] in P'; [|discriminate].
  assert (Q1 : flat_map enc1 vs = flat_map enc1 vs') by (injection P as <-; injection P' as <-; exact Q).
  apply (f_equal decodeURIComponent) in Q1. rewrite !round_trip in Q1 by assumption. congruence.
Qed.

Lemma table pow sgn es e f0 st vs ws b : e <> Loaded ->
  on_events pow sgn (es ++ [e]) (new_page f0) = Ok st ->
  text_of (vs ++ ws) (box st) -> ~ In 0 vs -> (ws = [] \/ exists r, ws = 0 :: r) -> bytes_of vs b ->
  exists t, explain pow sgn (byte_string b) = Ok t /\ shown st = Some t.
Proof.
  intros He E T NZ W By. destruct (last_event _ _ _ _ _ _ He E) as (st0 & _ & P & B & _).
  apply text_utf16 in T as [F T]. unfold page_explain in P. rewrite <- B, T, encode_text in P by exact F.
  rewrite to_utf8_text, flat_map_app in P by exact F. apply Forall_app in F as [F _].
  rewrite (bytes_of_utf8 _ _ F By), c_string_app in * by (apply nonzero_bytes, NZ).
  replace (byte_string (flat_map utf8 vs) ++ c_string (flat_map utf8 ws))%string with (byte_string (flat_map utf8 vs)) in P.
  2:{ rewrite <- (app_empty_r (byte_string (flat_map utf8 vs))) at 1. f_equal.
      destruct W as [->|[r ->]]; reflexivity. }
  destruct (explain pow sgn _) as [t|]; cbn [bind] in P; [|discriminate]. exists t. split; [reflexivity|].
  injection P as <-. reflexivity.
Qed.

Lemma no_text pow sgn es e f0 st1 st : e <> Loaded ->
  on_events pow sgn es (new_page f0) = Ok st1 -> on_events pow sgn (es ++ [e]) (new_page f0) = Ok st ->
  Forall (fun c => c < 65536) (box st) -> (forall vs, ~ text_of vs (box st)) ->
  shown st = None /\ fragment st = fragment st1.
Proof.
  intros He E1 E U NT. destruct (last_event _ _ _ _ _ _ He E) as (st0 & _ & P & B & _ & _ & G).
  specialize (G _ E1). unfold page_explain in P. rewrite <- B in *. destruct (encodeURIComponent (box st)) eqn:X.
  - destruct (encoded_text _ _ _ (le_n _) U X) as [vs T]. destruct (NT vs T).
  - injection P as <-. cbn [shown fragment]. auto.
Qed.

Lemma edited pow sgn es text f0 st : ~ In 13 text ->
  on_events pow sgn (es ++ [Edited text]) (new_page f0) = Ok st -> box st = text.
Proof.
  intros H E. assert (He : Edited text <> Loaded) by discriminate.
  destruct (last_event _ _ _ _ _ _ He E) as (st0 & _ & _ & B & _ & G & _).
  rewrite B, (G _ eq_refl). apply box_value_same, H.
Qed.

(** What fails *)
Lemma empty_explained pow sgn : exists t, explain pow sgn "" = Ok t /\ t <> ""%string.
Proof. destruct sgn; eexists; (split; [vm_compute; reflexivity|discriminate]). Qed.
Lemma sample_same : box_value sampleReportStr = sampleReportStr.
Proof. vm_compute. reflexivity. Qed.
Lemma started_box pow sgn st st' : page_explain pow sgn st = Ok st' -> box st' = box st.
Proof.
  unfold page_explain. destruct (encodeURIComponent (box st)).
  - destruct (explain pow sgn _); cbn [bind]; intros [= <-]. reflexivity.
  - intros [= <-]. reflexivity.
Qed.
Lemma explain_empty pow sgn f s t : explain pow sgn "" = Ok t ->
  page_explain pow sgn (mkPageState [] f s) = Ok (mkPageState [] [] (Some t)).
Proof.
  intros E. unfold page_explain. cbn [box encodeURIComponent to_utf8 c_string fragment]. rewrite E. reflexivity.
Qed.
Lemma loaded_empty b s : box (getInputFromHash (mkPageState b [] s)) = sampleReportStr
  /\ shown (getInputFromHash (mkPageState b [] s)) = s.
Proof.
  unfold getInputFromHash. cbn [fragment shown].
  destruct (encodeURIComponent sampleReportStr); cbn [box shown]; (split; [apply sample_same|reflexivity]).
Qed.
Lemma events_cons pow sgn e es st st' : on_event pow sgn e st = Ok st' ->
  on_events pow sgn (e :: es) st = on_events pow sgn es st'.
Proof. intros E. cbn [on_events]. rewrite E. reflexivity. Qed.
Lemma empty_lost pow sgn f0 : exists st, on_events pow sgn [Edited []] (new_page f0) = Ok st /\ box st = []
  /\ forall st', on_events pow sgn [Loaded; Started] (new_page (fragment st)) = Ok st' -> box st' = sampleReportStr.
Proof.
  destruct (empty_explained pow sgn) as [t [E _]]. exists (mkPageState [] [] (Some t)). split.
  - rewrite (events_cons _ _ _ _ _ _ (explain_empty pow sgn f0 None t E : on_event pow sgn (Edited []) (new_page f0) = _)).
    reflexivity.
  - split; [reflexivity|]. intros st' H.
    rewrite (events_cons _ _ _ _ _ _ (eq_refl : on_event pow sgn Loaded _ = Ok (getInputFromHash _))) in H.
    cbn [fragment] in H. pose proof (proj1 (loaded_empty [] None)) as L. unfold new_page in H.
    revert H L. generalize (getInputFromHash (mkPageState [] [] None)). intros st H L.
    cbn [on_events on_event] in H.
    destruct (page_explain pow sgn st) as [st1|] eqn:P; cbn [bind] in H; [|discriminate]. injection H as <-.
    rewrite (started_box _ _ _ _ P). exact L.
Qed.
Lemma order_lost pow sgn f : exists st t, on_events pow sgn [Started; Loaded] (new_page f) = Ok st
  /\ box st = sampleReportStr /\ explain pow sgn "" = Ok t /\ shown st = Some t.
Proof.
  destruct (empty_explained pow sgn) as [t [E _]]. exists (getInputFromHash (mkPageState [] [] (Some t))), t. split.
  - rewrite (events_cons _ _ _ _ _ _ (explain_empty pow sgn f None t E : on_event pow sgn Started (new_page f) = _)).
    reflexivity.
  - destruct (loaded_empty [] (Some t)) as [B S]. split; [exact B|]. split; [exact E|exact S].
Qed.
Lemma half_lost pow sgn f0 : exists st, on_events pow sgn [Edited (js "METAR EGLL"); Edited [55296]] (new_page f0) = Ok st
  /\ box st = [55296] /\ shown st = None /\ fragment st = js "METAR%20EGLL".
Proof. destruct sgn; eexists; (split; [vm_compute; reflexivity|repeat split]). Qed.
