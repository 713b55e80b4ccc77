(** Proofs about the options of the summary page. *)
From Coq Require Import List String Ascii NArith Bool Lia DecimalString.
From Verif Require Import Prim Format SpecDecimal Pf_ExNumber ExplainPage SpecLink Pf_Link Options SpecOptions.
Import ListNotations.
Local Open Scope N_scope.

Lemma js_eqb_spec a : forall b, js_eqb a b = true <-> a = b.
Proof.
  induction a as [|x a IH]; intros [|y b]; cbn; split; try congruence.
  - intros H. apply andb_prop in H as [H1 H2]. apply N.eqb_eq in H1 as ->. apply IH in H2 as ->. reflexivity.
  - intros [= -> ->]. rewrite N.eqb_refl. apply IH. reflexivity.
Qed.
Lemma split_none c s : ~ In c s -> js_split c s = [s].
Proof.
  induction s as [|x s IH]; intros H; [reflexivity|]. cbn [js_split].
  replace (x =? c) with false by (symmetry; apply N.eqb_neq; intros ->; apply H; left; reflexivity).
  rewrite IH; [reflexivity|]. intros I. apply H. right. exact I.
Qed.
Lemma split_at c a b : ~ In c a -> js_split c (a ++ c :: b) = a :: js_split c b.
Proof.
  induction a as [|x a IH]; intros H; cbn [app js_split]; [rewrite N.eqb_refl; reflexivity|].
  replace (x =? c) with false by (symmetry; apply N.eqb_neq; intros ->; apply H; left; reflexivity).
  rewrite IH; [reflexivity|]. intros I. apply H. right. exact I.
Qed.
Lemma decode_plain_loop s : ~ In 37 s -> forall fuel, (List.length s < fuel)%nat -> decode_loop fuel s = Some s.
Proof.
  induction s as [|x s IH]; intros H [|fuel] L; try (cbn in L; lia); [reflexivity|]. cbn [decode_loop].
  replace (x =? 37) with false by (symmetry; apply N.eqb_neq; intros ->; apply H; left; reflexivity).
  rewrite IH; [reflexivity| |cbn in L; lia]. intros I. apply H. right. exact I.
Qed.
Lemma decode_plain s : ~ In 37 s -> decodeURIComponent s = Some s.
Proof. intros H. apply decode_plain_loop; [exact H|lia]. Qed.

Lemma numeric_not c s : existsb (N.eqb c) [38; 61; 37] = true -> Forall numeric_character s -> ~ In c s.
Proof.
  intros C F I. rewrite Forall_forall in F. destruct (F _ I) as [A _]. cbn [existsb] in C.
  destruct (c =? 38) eqn:E1; [apply N.eqb_eq in E1 as ->|destruct (c =? 61) eqn:E2;
    [apply N.eqb_eq in E2 as ->|destruct (c =? 37) eqn:E3; [apply N.eqb_eq in E3 as ->|discriminate]]];
    vm_compute in A; repeat (destruct A as [A|A]; [discriminate|]); exact A.
Qed.

Definition query_of (u : bool) (t : jstring) : jstring := (js "distance=" ++ t ++ (if u then js "&unit=imperial" else []))%list.
Lemma query_items u t : Forall numeric_character t ->
  js_split 38 (query_of u t) = ((js "distance=" ++ t) :: (if u then [js "unit=imperial"] else []))%list.
Proof.
  intros F. unfold query_of. assert (H : ~ In 38 (js "distance=" ++ t)%list).
  { intros I. apply in_app_or in I as [I|I]; [vm_compute in I; repeat (destruct I as [I|I]; [discriminate|]); exact I|].
    exact (numeric_not 38 t eq_refl F I). }
  rewrite app_assoc. destruct u.
  - change (js "&unit=imperial") with (38 :: js "unit=imperial"). rewrite split_at by exact H. reflexivity.
  - rewrite app_nil_r. apply split_none, H.
Qed.
Lemma distance_item t : Forall numeric_character t -> js_split 61 (js "distance=" ++ t) = [js "distance"; t].
Proof.
  intros F. change (js "distance=" ++ t)%list with (js "distance" ++ 61 :: t)%list. rewrite split_at.
  - rewrite split_none; [reflexivity|]. exact (numeric_not 61 t eq_refl F).
  - vm_compute. intros I. repeat (destruct I as [I|I]; [discriminate|]). exact I.
Qed.
Lemma find_distance u t : Forall numeric_character t -> findGetParameter (query_of u t) "distance" = Ok (Some t).
Proof.
  intros F. unfold findGetParameter. rewrite query_items by exact F. cbn [find_loop]. rewrite distance_item by exact F.
  replace (js_eqb (js "distance") (js "distance")) with true by reflexivity.
  rewrite decode_plain by exact (numeric_not 37 t eq_refl F). destruct u; reflexivity.
Qed.
Lemma find_unit u t : Forall numeric_character t ->
  findGetParameter (query_of u t) "unit" = Ok (if u then Some (js "imperial") else None).
Proof.
  intros F. unfold findGetParameter. rewrite query_items by exact F. cbn [find_loop]. rewrite distance_item by exact F.
  replace (js_eqb (js "distance") (js "unit")) with false by reflexivity. destruct u; reflexivity.
Qed.

(** Whole numbers *)
Lemma digit_js c d : digit_of c = Some d -> digit_value (N_of_ascii c) = Some d.
Proof. destruct c as [[] [] [] [] [] [] [] []]; cbn; intros H; try discriminate; exact H. Qed.
Lemma digits_js s : forall v acc, decimal s = Some v ->
  digits_value acc (js s) = Some (acc * 10 ^ N.of_nat (String.length s) + v).
Proof.
  induction s as [|c s IH]; intros v acc; cbn [decimal String.length].
  - intros [= <-]. cbn. f_equal. lia.
  - destruct (digit_of c) as [d|] eqn:D; [|discriminate]. destruct (decimal s) as [w|] eqn:W; [|discriminate].
    intros [= <-]. unfold js. cbn [list_ascii_of_string map digits_value]. rewrite (digit_js _ _ D).
    change (map N_of_ascii (list_ascii_of_string s)) with (js s). rewrite (IH w) by reflexivity.
    f_equal. rewrite Nat2N.inj_succ, N.pow_succ_r'. lia.
Qed.
Lemma digits_dec n : digits_value 0 (js (dec_N n)) = Some n.
Proof. rewrite (digits_js _ n) by apply decimal_dec. f_equal. Qed.
Lemma numeric_dec n : Forall numeric_character (js (dec_N n)).
Proof.
  unfold dec_N. generalize (N.to_uint n). intros d. induction d; cbn [NilEmpty.string_of_uint];
    unfold js in *; cbn [list_ascii_of_string map]; constructor; try exact IHd; split; try reflexivity; vm_compute; tauto.
Qed.
Lemma whole_read other n : n < 9007199254740992 -> toNumber other (Some (js (dec_N n))) = Whole n.
Proof.
  intros L. unfold toNumber. rewrite digits_dec. apply N.ltb_lt in L. rewrite L.
  destruct (js (dec_N n)) eqn:E; [|reflexivity]. pose proof (dec_nonempty n) as NE.
  destruct (dec_N n); [congruence|discriminate].
Qed.

Definition sound (other : jstring -> Number) (d : Number) : Prop :=
  falsy d = false /\ isNaN d = false /\ Forall numeric_character (number_text d)
  /\ toNumber other (Some (number_text d)) = d.
Lemma sound_whole other n : 0 < n < 9007199254740992 -> sound other (Whole n).
Proof.
  intros H. split; [cbn; lia|]. split; [reflexivity|]. split; [apply numeric_dec|]. apply whole_read. lia.
Qed.
Lemma sound_other other q : numbers_are_read_back other -> falsy (other q) = false -> sound other (other q).
Proof.
  intros R F. specialize (R q). destruct (other q) as [|n|t] eqn:E; [discriminate| |]; destruct R as [A B];
    (split; [exact F|split; [reflexivity|split; [exact A|exact B]]]).
Qed.
Lemma sound_number other v : numbers_are_read_back other ->
  let d := toNumber other v in sound other (if isNaN d || falsy d then Whole 30 else d).
Proof.
  intros R d. destruct (isNaN d || falsy d) eqn:E; [apply sound_whole; lia|].
  apply orb_false_elim in E as [_ E]. unfold d, toNumber in *. destruct v as [[|c s]|]; try discriminate.
  destruct (digits_value 0 (c :: s)) as [n|].
  - destruct (n <? 9007199254740992) eqn:L; [|apply sound_other; assumption].
    apply sound_whole. cbn in E. lia.
  - apply sound_other; assumption.
Qed.

Lemma query_effect other u d : sound other d -> in_effect other (query_of u (number_text d)) (mkChoice u d).
Proof.
  intros (F & NN & T & R). split; cbn [imperial distance].
  - unfold shownUnitImperial, unitIsImperial. rewrite find_unit by exact T. destruct u; reflexivity.
  - unfold requestDistance. rewrite find_distance by exact T. unfold bind.
    match goal with |- context [toNumber other ?x] => replace (toNumber other x) with d by (symmetry; exact R) end.
    rewrite NN, F. reflexivity.
Qed.
Lemma effect_sound other q c : numbers_are_read_back other -> in_effect other q c -> sound other (distance c).
Proof.
  intros R [_ E]. unfold requestDistance in E. destruct (findGetParameter q "distance"); [|discriminate]. cbn [bind] in E.
  injection E as <-. apply sound_number, R.
Qed.
Lemma options_of other q c : in_effect other q c ->
  updateOptions other q = Ok (displayUnitOptions (imperial c) (distance c), displayDistanceOptions (imperial c) (distance c)).
Proof.
  intros [U D]. unfold shownUnitImperial in U. unfold updateOptions. rewrite U. cbn [bind]. unfold requestDistance in D.
  destruct (findGetParameter q "distance") as [v|]; [|discriminate]. cbn [bind] in *. injection D as <-.
  rewrite orb_comm. reflexivity.
Qed.

Lemma one_click other q c k : numbers_are_read_back other -> in_effect other q c -> is_offered k ->
  exists p q', updateOptions other q = Ok p /\ link_of k p = Some q' /\ in_effect other q' (choose k c).
Proof.
  intros R E O. pose proof (effect_sound _ _ _ R E) as S. rewrite (options_of _ _ _ E).
  assert (Wh : forall n s, js s = (js "distance=" ++ number_text (Whole n))%list -> 0 < n < 9007199254740992 ->
    in_effect other (js s ++ (if imperial c then js "&unit=imperial" else [])) (mkChoice (imperial c) (Whole n))).
  { intros n s Q L. rewrite Q, <- app_assoc. apply (query_effect other (imperial c) (Whole n)). apply sound_whole, L. }
  destruct k as [| |n]; cbn [choose is_offered] in *.
  - eexists _, _. split; [reflexivity|]. split; [reflexivity|]. cbn [displayUnitOptions fst snd entry_query].
    pose proof (query_effect other false (distance c) S) as Q. unfold query_of in Q. rewrite app_nil_r in Q. exact Q.
  - eexists _, _. split; [reflexivity|]. split; [reflexivity|]. exact (query_effect other true (distance c) S).
  - repeat (destruct O as [<-|O]; [eexists _, _; split; [reflexivity|]; split; [reflexivity|]; cbn [entry_query snd];
      apply Wh; [reflexivity|lia]|]). destruct O.
Qed.
Lemma clicks other ks : forall q c, numbers_are_read_back other -> in_effect other q c -> Forall is_offered ks ->
  exists q', follow other ks q = Ok q' /\ in_effect other q' (fold_left (fun c k => choose k c) ks c).
Proof.
  induction ks as [|k ks IH]; intros q c R E F; [exists q; split; [reflexivity|exact E]|].
  apply Forall_cons_iff in F as [O F]. destruct (one_click _ _ _ _ R E O) as (p & q1 & P & L & E1).
  destruct (IH q1 (choose k c) R E1 F) as (q' & G & E'). exists q'. split; [|exact E'].
  cbn [follow]. rewrite P. cbn [bind]. rewrite L. exact G.
Qed.

Lemma marked other q p : updateOptions other q = Ok p ->
  exists c, in_effect other q c
    /\ entry_on (fst (fst p)) = negb (imperial c) /\ entry_on (snd (fst p)) = imperial c
    /\ map fst (snd p) = offered
    /\ forall n e, In (n, e) (snd p) -> (entry_on e = true <-> distance c = Whole n).
Proof.
  intros E. assert (X : exists c, in_effect other q c).
  { unfold updateOptions in E. destruct (unitIsImperial q) as [u|] eqn:U; [|discriminate]. cbn [bind] in E.
    unfold in_effect, shownUnitImperial, requestDistance.
    destruct (findGetParameter q "distance") as [v|] eqn:V; [|discriminate].
    exists (mkChoice u (if isNaN (toNumber other v) || falsy (toNumber other v) then Whole 30 else toNumber other v)).
    split; [exact U|reflexivity]. }
  destruct X as [c X]. exists c. split; [exact X|]. rewrite (options_of _ _ _ X) in E. injection E as <-.
  cbn [fst snd displayUnitOptions entry_on]. split; [destruct (imperial c); reflexivity|].
  split; [destruct (imperial c); reflexivity|]. split; [reflexivity|].
  assert (S : forall n, same_number (distance c) n = true <-> distance c = Whole n).
  { intros n. unfold same_number. destruct (distance c) as [|m|]; split; try discriminate.
    - intros H. apply N.eqb_eq in H as ->. reflexivity.
    - intros [= ->]. apply N.eqb_refl. }
  intros n e I. cbn [displayDistanceOptions] in I.
  repeat (destruct I as [I|I]; [injection I as <- <-; cbn [entry_on]; apply S|]). destruct I.
Qed.

Lemma malformed other : updateOptions other (js "distance=30&unit=%") = Bad Throw.
Proof. reflexivity. Qed.
Lemma fresh other : in_effect other [] (mkChoice false (Whole 30)).
Proof. split; reflexivity. Qed.
(** An example of [other] *)
Definition other_example (q : jstring) : Number := if js_eqb q (js "2.5") || js_eqb q (js "2.50") then Other (js "2.5") else NaN.
Lemma other_example_reads : numbers_are_read_back other_example.
Proof.
  intros q. unfold other_example. destruct (js_eqb q (js "2.5") || js_eqb q (js "2.50")); [|exact I].
  split; [|reflexivity]. repeat constructor; vm_compute; tauto.
Qed.

(** Queries with parameters *)
Lemma encoded_plain vs v f : text_of vs v -> encodeURIComponent v = Some f ->
  ~ In 38 f /\ ~ In 61 f /\ decodeURIComponent f = Some v.
Proof.
  intros T E. apply text_utf16 in T as [F ->]. rewrite encode_text in E by exact F. injection E as <-.
  split; [|split; [|apply round_trip, F]]; intros I; apply in_flat_map in I as (c & Hc & I);
    rewrite Forall_forall in F; specialize (F _ Hc); pose proof (enc1_address _ F) as A; rewrite Forall_forall in A;
    destruct (A _ I) as [B _]; vm_compute in B; repeat (destruct B as [B|B]; [discriminate|]); exact B.
Qed.
Definition pick (name : jstring) (r : option jstring) (p : jstring * jstring) : option jstring :=
  if js_eqb (fst p) name then Some (snd p) else r.
Lemma item_split n v f vs : ~ In 61 n -> text_of vs v -> encodeURIComponent v = Some f ->
  js_split 61 (n ++ 61 :: f) = [n; f].
Proof.
  intros H T E. destruct (encoded_plain _ _ _ T E) as (_ & A & _). rewrite split_at, split_none by assumption. reflexivity.
Qed.
Lemma find_picks name ps q : query_with ps q -> Forall proper_parameter ps -> forall r,
  find_loop name (js_split 38 q) r = Ok (fold_left (pick name) ps r).
Proof.
  induction 1 as [n v f E|n v f ps q E Q IH]; intros P r; apply Forall_cons_iff in P as [(A & B & vs & T) P];
    cbn [fst snd] in *; destruct (encoded_plain _ _ _ T E) as (C & _ & D).
  - rewrite split_none.
    2:{ intros I. apply in_app_or in I as [I|[I|I]]; [exact (A I)|discriminate|exact (C I)]. }
    cbn [find_loop fold_left]. rewrite (item_split _ _ _ _ B T E). unfold pick. cbn [fst snd].
    destruct (js_eqb n name); [rewrite D; reflexivity|reflexivity].
  - replace (n ++ 61 :: f ++ 38 :: q)%list with ((n ++ 61 :: f) ++ 38 :: q)%list by (rewrite <- app_assoc; reflexivity).
    rewrite split_at.
    2:{ intros I. apply in_app_or in I as [I|[I|I]]; [exact (A I)|discriminate|exact (C I)]. }
    cbn [find_loop fold_left]. rewrite (item_split _ _ _ _ B T E). unfold pick at 2. cbn [fst snd].
    destruct (js_eqb n name); [rewrite D|]; apply IH, P.
Qed.
Lemma pick_none name ps : (forall v, ~ In (name, v) ps) -> forall r, fold_left (pick name) ps r = r.
Proof.
  induction ps as [|[n v] ps IH]; intros H r; [reflexivity|]. cbn [fold_left]. unfold pick at 2. cbn [fst snd].
  destruct (js_eqb n name) eqn:E.
  - apply js_eqb_spec in E as ->. exfalso. apply (H v). left. reflexivity.
  - apply IH. intros w I. apply (H w). right. exact I.
Qed.
Lemma parameter name ps q v : query_with ps q -> Forall proper_parameter ps -> last_value (js name) ps v ->
  findGetParameter q name = Ok v.
Proof.
  intros Q P L. unfold findGetParameter. rewrite (find_picks _ _ _ Q P). f_equal. destruct L as [ps H|ps v rest H].
  - apply pick_none, H.
  - rewrite fold_left_app. cbn [fold_left]. unfold pick at 2. cbn [fst snd].
    replace (js_eqb (js name) (js name)) with true by (symmetry; apply js_eqb_spec; reflexivity). apply pick_none, H.
Qed.
Lemma unit_parameter ps q v : query_with ps q -> Forall proper_parameter ps -> last_value (js "unit") ps v ->
  exists b, shownUnitImperial q = Ok b /\ (b = true <-> v = Some (js "imperial")).
Proof.
  intros Q P L. unfold shownUnitImperial, unitIsImperial. rewrite (parameter _ _ _ _ Q P L).
  destruct v as [u|]; (eexists; split; [reflexivity|]).
  - rewrite js_eqb_spec. split; [intros ->; reflexivity|intros [= ->]; reflexivity].
  - split; discriminate.
Qed.
Lemma distance_parameter other ps q v : query_with ps q -> Forall proper_parameter ps -> last_value (js "distance") ps v ->
  (v = None -> requestDistance other q = Ok (Whole 30))
  /\ (forall s n, v = Some (js s) -> s <> ""%string -> decimal s = Some n -> 0 < n < 9007199254740992 ->
        requestDistance other q = Ok (Whole n)).
Proof.
  intros Q P L. unfold requestDistance. rewrite (parameter _ _ _ _ Q P L). split.
  - intros ->. reflexivity.
  - intros s n -> NE D H. cbn [bind]. unfold toNumber. rewrite (digits_js _ _ _ D).
    replace (0 * 10 ^ N.of_nat (String.length s) + n) with n by lia.
    destruct (js s) eqn:E; [destruct s; [congruence|discriminate]|].
    replace (n <? 9007199254740992) with true by (symmetry; apply N.ltb_lt; lia). cbn [isNaN falsy orb].
    replace (n =? 0) with false by (symmetry; apply N.eqb_neq; lia). reflexivity.
Qed.
