(** C52: cloud type groups and groups of low, middle and high clouds. *)
From Coq Require Import Lia ZifyBool ZifyN ZifyNat.
From Verif Require Import Prim Lib Regex Float Values Weather Groups1 Groups2 Groups3 Groups4 Parser SpecRegex SpecTokens SpecReads SpecText SpecForm
  SpecReach SpecBuilt SpecAssembled SpecAppend SpecDecimal SpecNumeral SpecMiles SpecDirection SpecNearby SpecTexts.
From Verif Require Import Pf_Ok Pf_OkValues Pf_OkGroups2 Pf_Caps Pf_Regex Pf_Total Pf_Steps Pf_Kinds Pf_View Pf_Decimal Pf_Numeral Pf_Form Pf_Shapes Pf_Decode Pf_Layout
  Pf_Values3 Pf_Texts Pf_Assembled Pf_Grown Pf_Waits Pf_Weather Pf_Cloud Pf_Visibility.
From Verif Require Import SpecCloud SpecClouds.
Local Open Scope string_scope.

(** ** Low, middle and high clouds *)
Definition re_code : re := Eval vm_compute in rx "[0-9/]".
Lemma code_words : forall x, Lang re_code x -> In x ["0"; "1"; "2"; "3"; "4"; "5"; "6"; "7"; "8"; "9"; "/"].
Proof. intros x L. in_words L X. cbn in X. intuition (subst; cbn; auto 20). Qed.
Lemma codes_match : forall s m, regex_match rgx_lmh s = Some m <->
  exists a b c, s = "8/" ++ a ++ b ++ c /\ m = [(3, c); (2, b); (1, a)]%nat /\ Lang re_code a /\ Lang re_code b /\ Lang re_code c.
Proof.
  intros s m. split.
  - intros R. apply regex_match_captures in R. unfold rgx_lmh in R. captures R. in_words L X. destruct X as [<-|[]]. in_words L0 X. destruct X as [<-|[]].
    eexists _, _, _. split; [reflexivity|]. split; [reflexivity|]. auto.
  - intros (a & b & c & -> & -> & A & B & C). change ("8/" ++ a ++ b ++ c) with ("8" ++ "/" ++ a ++ b ++ c). cap_match.
Qed.
Ltac each H := cbn [In] in H; repeat (destruct H as [<-|H]; [|]); try contradiction.
Lemma low_read : forall x, Lang re_code x -> exists c, sget x 0 = Ok c /\ forall l, In (x, l) low_clouds <-> l = Lmh_lowLayerFromChar c.
Proof. intros x L. apply code_words in L. each L; eexists; (split; [reflexivity|]); intros l; cbn; intuition congruence. Qed.
Lemma middle_read : forall x, Lang re_code x -> exists c, sget x 0 = Ok c /\ forall l, In (x, l) middle_clouds <-> l = Lmh_midLayerFromChar c.
Proof. intros x L. apply code_words in L. each L; eexists; (split; [reflexivity|]); intros l; cbn; intuition congruence. Qed.
Lemma high_read : forall x, Lang re_code x -> exists c, sget x 0 = Ok c /\ forall l, In (x, l) high_clouds <-> l = Lmh_highLayerFromChar c.
Proof. intros x L. apply code_words in L. each L; eexists; (split; [reflexivity|]); intros l; cbn; intuition congruence. Qed.
Lemma low_lang : forall x l, In (x, l) low_clouds -> Lang re_code x.
Proof. intros x l H. cbn in H. intuition; match goal with H : (_, _) = _ |- _ => injection H as <- <- end; apply closed_lang; reflexivity. Qed.
Lemma middle_lang : forall x l, In (x, l) middle_clouds -> Lang re_code x.
Proof. intros x l H. cbn in H. intuition; match goal with H : (_, _) = _ |- _ => injection H as <- <- end; apply closed_lang; reflexivity. Qed.
Lemma high_lang : forall x l, In (x, l) high_clouds -> Lang re_code x.
Proof. intros x l H. cbn in H. intuition; match goal with H : (_, _) = _ |- _ => injection H as <- <- end; apply closed_lang; reflexivity. Qed.
Lemma codes_parse : forall w part md g, LowMidHighCloudGroup_parse w part md = Ok (Some g) <-> Sky_codes part [w] g.
Proof.
  intros w part md g. unfold LowMidHighCloudGroup_parse. split.
  - intros H. destruct (is_part part RP_RMK) eqn:P; [|discriminate H]. cbn [negb] in H. assert (part = RP_RMK) by (destruct part; try discriminate P; reflexivity). subst part.
    destruct (regex_match rgx_lmh w) as [m|] eqn:R; [|discriminate H]. apply codes_match in R. destruct R as (a & b & c & -> & -> & A & B & C).
    cbn [mstr find fst snd Nat.eqb] in H. destruct (low_read _ A) as (x & Ex & A'). destruct (middle_read _ B) as (y & Ey & B'). destruct (high_read _ C) as (z & Ez & C').
    rewrite Ex in H. cbn [bind] in H. rewrite Ey in H. cbn [bind] in H. rewrite Ez in H. cbn [bind] in H. injection H as <-.
    apply Sky_codes_word; [reflexivity|apply A'; reflexivity|apply B'; reflexivity|apply C'; reflexivity].
  - intros H. inversion H as [a b c low mid high P A B C E E']; subst. cbn [is_part negb].
    pose proof (low_lang _ _ A) as La. pose proof (middle_lang _ _ B) as Lb. pose proof (high_lang _ _ C) as Lc.
    match goal with |- context [regex_match rgx_lmh ?s] => change s with ("8/" ++ a ++ b ++ c) end.
    rewrite (proj2 (codes_match ("8/" ++ a ++ b ++ c) [(3, c); (2, b); (1, a)]%nat)) by eauto 10. cbn [mstr find fst snd Nat.eqb].
    destruct (low_read _ La) as (x & Ex & A'). destruct (middle_read _ Lb) as (y & Ey & B'). destruct (high_read _ Lc) as (z & Ez & C').
    rewrite Ex. cbn [bind]. rewrite Ey. cbn [bind]. rewrite Ez. cbn [bind]. apply A' in A. apply B' in B. apply C' in C. subst. reflexivity.
Qed.
Theorem codes_words : forall part now words g, Assembled part now words (GLowMidHighCloud g) <-> Sky_codes part words g.
Proof.
  intros part now words g. split.
  - intros H. refine (assembled_kind part now (fun ws k => match k with GLowMidHighCloud x => Sky_codes part ws x | _ => True end) _ _ words (GLowMidHighCloud g) H).
    + intros w md [] _ P; try exact I. exact (proj1 (codes_parse _ _ _ _) P).
    + intros ws' w md [] [] _ IH T A; try exact I; try contradiction. discriminate A.
  - intros H. pose proof H as H0. destruct H. apply (assembled_first part now _ (GLowMidHighCloud _)). cbn [parsed_as]. apply codes_parse. exact H0.
Qed.
Theorem result_codes : forall sgn report limit r, parse sgn report limit = Ok r ->
  forall g part raw, In (mkGroupInfo (GLowMidHighCloud g) part raw) (pr_groups r) -> raw <> "" -> Sky_codes part (words_of raw) g.
Proof.
  intros sgn report limit r E g part raw Hi N.
  refine (Pf_WeatherWords.built_kind part (fun ws k => match k with GLowMidHighCloud x => Sky_codes part ws x | _ => True end) _ _ _ _ _ (GLowMidHighCloud g) (Pf_Built.built_from_words _ _ _ _ E _ _ _ Hi N)).
  - exact (fun _ => I).
  - intros w md [] P; try exact I. exact (proj1 (codes_parse _ _ _ _) P).
  - intros ws' w md [] [] _ IH A; try exact I; try contradiction. discriminate A.
  - intros ws' w part' md [] [] _ IH A; try exact I; try contradiction. injection A as <-. exact IH.
Qed.

(** ** Cloud types *)
Definition piece : re := rgx_cloudtypes_search.
Lemma digit_not_letter : forall c, in_cls c [("0", "9")%char] = true -> in_cls c [("A", "Z")%char] = false.
Proof. intros c. destruct c as [[] [] [] [] [] [] [] []]; vm_compute; congruence. Qed.
Lemma letter_not_digit : forall c, in_cls c [("A", "Z")%char] = true -> in_cls c [("0", "9")%char] = false.
Proof. intros c. destruct c as [[] [] [] [] [] [] [] []]; vm_compute; congruence. Qed.
Ltac inv_lang L := inversion L; subst; clear L.
Lemma piece_run : forall p rest, Lang piece p -> run piece (p ++ rest) [] = [(rest, [])].
Proof.
  intros p rest L. unfold piece, rgx_cloudtypes_search in L.
  repeat match goal with
  | L : Lang (RSeq _ _) _ |- _ => inv_lang L
  | L : Lang (RCls _) _ |- _ => inv_lang L
  | L : Lang (ROpt _) _ |- _ => inv_lang L
  end; cbn [append];
  repeat match goal with
  | D : in_cls ?c [("0", "9")%char] = true |- _ => pose proof (digit_not_letter _ D); revert D
  | D : in_cls ?c [("A", "Z")%char] = true |- _ => pose proof (letter_not_digit _ D); revert D
  end; intros;
  unfold piece, rgx_cloudtypes_search; cbn [run flat_map fst snd app];
  repeat (match goal with D : in_cls ?c ?k = _ |- context [in_cls ?c ?k] => rewrite D end; cbn [run flat_map fst snd app]); reflexivity.
Qed.
Lemma concat_cons : forall p l, String.concat "" (p :: l) = p ++ String.concat "" l.
Proof. intros p [|q l]; cbn [String.concat append]; [rewrite app_empty_r; reflexivity|reflexivity]. Qed.
Lemma piece_letter : forall p, Lang piece p -> exists c r, p = String c r /\ in_cls c [("A", "Z")%char] = true.
Proof.
  intros p L. unfold piece, rgx_cloudtypes_search in L.
  repeat match goal with
  | L : Lang (RSeq _ _) _ |- _ => inv_lang L
  | L : Lang (RCls _) _ |- _ => inv_lang L
  | L : Lang (ROpt _) _ |- _ => inv_lang L
  end; cbn; eauto.
Qed.
Lemma piece_length : forall p, Lang piece p -> (3 <= slen p)%nat.
Proof.
  intros p L. unfold piece, rgx_cloudtypes_search in L.
  repeat match goal with
  | L : Lang (RSeq _ _) _ |- _ => inv_lang L
  | L : Lang (RCls _) _ |- _ => inv_lang L
  | L : Lang (ROpt _) _ |- _ => inv_lang L
  end; cbn; lia.
Qed.
Lemma search_pieces : forall l fuel, Forall (Lang piece) l -> (slen (String.concat "" l) < fuel)%nat -> search_from fuel piece (String.concat "" l) = l.
Proof.
  induction l as [|p l IH]; intros fuel F B.
  - destruct fuel as [|fuel]; [lia|]. reflexivity.
  - inversion F as [|? ? P F']; subst. rewrite concat_cons in *. rewrite slen_app in B. pose proof (piece_length _ P).
    destruct fuel as [|fuel]; [lia|]. cbn [search_from]. rewrite (piece_run _ _ P). cbn [fst]. f_equal; [|apply IH; [exact F'|lia]].
    rewrite slen_app. replace (slen p + slen (String.concat "" l) - slen (String.concat "" l))%nat with (slen p) by lia. apply substring0_app.
Qed.
Lemma search_all : forall l, Forall (Lang piece) l -> regex_search_all rgx_cloudtypes_search (String.concat "" l) = l.
Proof. intros l F. apply search_pieces; [exact F|lia]. Qed.
Lemma star_pieces : forall s, Lang (RStar piece) s <-> exists l, Forall (Lang piece) l /\ s = String.concat "" l.
Proof.
  split.
  - intros L. remember (RStar piece) as r eqn:E. induction L; try discriminate E.
    + exists []. split; [constructor|reflexivity].
    + injection E as ->. destruct (IHL2 eq_refl) as (l & F & ->). exists (p :: l). split; [constructor; assumption|]. rewrite concat_cons. reflexivity.
  - intros (l & F & ->). induction F as [|p l P F IH]; [apply L_star0|]. rewrite concat_cons. apply L_star1; assumption.
Qed.
Lemma some_pieces : forall s, is_match rgx_cloudtypes s = true <-> exists l, l <> [] /\ Forall (Lang piece) l /\ s = String.concat "" l.
Proof.
  intros s. rewrite is_match_lang. change rgx_cloudtypes with (RSeq piece (RStar piece)). split.
  - intros L. inversion L as [| |a b p q P Q| | | | | | |]; subst. apply star_pieces in Q. destruct Q as (l & F & ->). exists (p :: l).
    split; [discriminate|]. split; [constructor; assumption|]. rewrite concat_cons. reflexivity.
  - intros ([|p l] & N & F & ->); [contradiction|]. rewrite concat_cons. inversion F; subst. apply L_seq; [assumption|]. apply star_pieces. eauto.
Qed.
Lemma pieces_all : forall l, Forall (matches "[A-Z]{2,4}\d") l <-> Forall (Lang piece) l.
Proof. intros l. reflexivity. Qed.
Lemma unheighted : forall s c, CloudText s c -> Lang piece s -> Distance_isReported (ctHt c) = false.
Proof.
  intros s c [o cd h t okta v O I N|cd o t okta I O] L; [exfalso|reflexivity].
  destruct (numeral_digit _ _ O) as (x & -> & Dx & _). apply (piece_run _ "") in L. rewrite app_empty_r in L. cbn [append] in L.
  unfold piece, rgx_cloudtypes_search in L. cbn [run flat_map app] in L. rewrite digit_not_letter in L; [discriminate L|].
  destruct x as [[] [] [] [] [] [] [] []]; try discriminate Dx; reflexivity.
Qed.
Lemma heighted : forall s c, CloudText s c -> Distance_isReported (ctHt c) = false -> Lang piece s.
Proof.
  intros s c [o cd h t okta v O I N|cd o t okta I O] R; [discriminate R|].
  change piece with (RSeq (rx "[A-Z]{2,4}") (rx "\d")). apply L_seq; [|apply (numeral_lang _ _ _ _ O); reflexivity].
  apply closed_lang. cbn [In cloud_codes obscuration_codes app] in I. each_code I; reflexivity.
Qed.
Lemma loop_words : forall ms l g, (List.length l <= places)%nat -> CloudTypes_loop ms l = Ok (Some g) <-> exists k, Forall2 CloudText (firstn (places - List.length l) ms) k /\ g = mkCloudTypes (l ++ k).
Proof.
  induction ms as [|s ms IH]; intros l g B; cbn [CloudTypes_loop].
  - rewrite firstn_nil. split.
    + intros H. injection H as <-. exists []. split; [constructor|]. rewrite List.app_nil_r. reflexivity.
    + intros (k & F & ->). inversion F; subst. rewrite List.app_nil_r. reflexivity.
  - change cldTpMaxSize with places. destruct (Nat.leb places (List.length l)) eqn:E.
    + apply Nat.leb_le in E. replace (places - List.length l)%nat with O by lia. cbn [firstn]. split.
      * intros H. injection H as <-. exists []. split; [constructor|]. rewrite List.app_nil_r. reflexivity.
      * intros (k & F & ->). inversion F; subst. rewrite List.app_nil_r. reflexivity.
    + apply Nat.leb_gt in E. assert (X : (places - List.length l = S (places - S (List.length l)))%nat) by lia. rewrite X. cbn [firstn].
      assert (Push : forall c, array_push 8 l c = Ok (l ++ [c])%list) by (intros c; unfold array_push; rewrite (proj2 (Nat.ltb_lt _ 8)) by (unfold places in E; exact E); reflexivity).
      assert (Len : forall c : CloudType, List.length (l ++ [c]) = S (List.length l)) by (intros c; rewrite app_length; cbn; lia).
      split.
      * intros H. apply bind_some in H. destruct H as (c & C & H). rewrite Push in H. cbn [bind] in H. apply IH in H; [|rewrite Len; lia]. rewrite Len in H.
        destruct H as (k & F & ->). exists (c :: k). split; [constructor; [apply cloud_type_parse; exact C|exact F]|]. rewrite <- List.app_assoc. reflexivity.
      * intros (k & F & ->). inversion F as [|? c ? k' C F']; subst. rewrite (proj2 (cloud_type_parse s c) C). cbn [bind]. rewrite Push. cbn [bind].
        apply IH; [rewrite Len; lia|]. rewrite Len. exists k'. split; [exact F'|]. rewrite <- List.app_assoc. reflexivity.
Qed.
Lemma types_first : forall w part md g, CloudTypesGroup_parse w part md = Ok (Some g) <-> Cloud_types part [w] (CloudTypesGroup_cloudTypes g).
Proof.
  intros w part md g. unfold CloudTypesGroup_parse. split.
  - intros H. destruct (is_part part RP_RMK) eqn:P; [|discriminate H]. cbn [negb] in H. assert (part = RP_RMK) by (destruct part; try discriminate P; reflexivity). subst part.
    apply or_else_some in H. destruct H as [H|[_ H]].
    + apply bind_some in H. destruct H as (c & C & H). injection H as <-. apply cloud_type_parse in C. cbn [CloudTypesGroup_cloudTypes cty_cldTp].
      destruct (Distance_isReported (ctHt c)) eqn:R.
      * apply Cloud_types_words; [reflexivity|discriminate|cbn; unfold places; lia|]. constructor; [split; assumption|constructor].
      * apply (Cloud_types_run RP_RMK [w]); [reflexivity|discriminate| |]; [|repeat constructor; exact C]. apply pieces_all. constructor; [exact (heighted _ _ C R)|constructor].
    + destruct (is_match rgx_cloudtypes w) eqn:M; [|discriminate H]. apply some_pieces in M. destruct M as (l & N & F & ->). rewrite (search_all _ F) in H.
      apply loop_words in H; [|cbn; lia]. destruct H as (k & K & ->). cbn [List.length app CloudTypesGroup_cloudTypes cty_cldTp] in *. rewrite Nat.sub_0_r in K.
      apply Cloud_types_run; [reflexivity|exact N|apply pieces_all; exact F|exact K].
  - intros H. destruct g as [j]. cbn [CloudTypesGroup_cloudTypes cty_cldTp] in *. inversion H as [ws l P N B F E E2|l k P N F K Ec E2]; subst part; cbn [is_part negb].
    + subst ws l. inversion F as [|? c ? l' [C R] F']; subst. inversion F'; subst.
      rewrite (proj2 (cloud_type_parse w c) C). reflexivity.
    + subst k. rename j into k. destruct (CloudType_fromString w) as [[c|]|] eqn:C.
      * cbn [bind]. unfold or_else. apply cloud_type_parse in C. apply (proj1 (pieces_all l)) in F.
        assert (R : Distance_isReported (ctHt c) = false).
        { destruct C as [o cd h t okta v O I Nm|cd o t okta I O]; [exfalso|reflexivity].
          destruct l as [|p l]; [contradiction|]. rewrite concat_cons in Ec. inversion F as [|? ? Fp Fl]; subst. destruct (piece_letter _ Fp) as (y & r & -> & Ly).
          destruct (numeral_digit _ _ O) as (x & -> & Dx & _). cbn [append] in Ec. injection Ec as -> _.
          clear - Ly Dx. destruct x as [[] [] [] [] [] [] [] []]; try discriminate Ly; discriminate Dx. }
        pose proof (heighted _ _ C R) as L. assert (X : l = [w]).
        { rewrite <- (search_all l F), Ec. transitivity (regex_search_all rgx_cloudtypes_search (String.concat "" [w])); [reflexivity|]. apply search_all. constructor; [exact L|constructor]. }
        subst l. inversion K as [|? c' ? k' C' K']; subst. inversion K'; subst. apply cloud_type_parse in C, C'. rewrite C in C'. injection C' as ->. rewrite Ec, C. reflexivity.
      * cbn [bind or_else]. apply (proj1 (pieces_all l)) in F. rewrite (proj2 (some_pieces _)) by eauto. rewrite (search_all _ F). rewrite Ec, C. change (CloudTypes_loop l [] = Ok (Some (mkCloudTypes k))).
        apply loop_words; [cbn; lia|]. exists k. cbn [List.length app]. rewrite Nat.sub_0_r. split; [exact K|reflexivity].
      * exfalso. pose proof (ok_CloudType_fromString w) as O. rewrite C in O. exact O.
Qed.

Lemma run_heights : forall l k, Forall (Lang piece) l -> Forall2 CloudText l k -> Forall (fun c => Distance_isReported (ctHt c) = false) k.
Proof. intros l k F K. induction K as [|p c l k C K IH]; constructor; inversion F; subst; [exact (unheighted _ _ C ltac:(assumption))|auto]. Qed.
Lemma firstn_forall : forall A (P : A -> Prop) n l, Forall P l -> Forall P (firstn n l).
Proof. intros A P n l F. revert n. induction F; intros [|n]; cbn; constructor; auto. Qed.
Lemma both_length : forall A B (P : A -> B -> Prop) l k, Forall2 P l k -> List.length l = List.length k.
Proof. intros A B P l k F. induction F; cbn; congruence. Qed.
Lemma last_of : forall A (l : list A) x y, List.rev l = x :: y -> In x l.
Proof. intros A l x y E. apply in_rev. rewrite E. left. reflexivity. Qed.
Lemma types_next : forall part ws g w md g', Cloud_types part ws (CloudTypesGroup_cloudTypes g) -> CloudTypesGroup_append g w part md = Ok (g', APPENDED) ->
  Cloud_types part (ws ++ [w]) (CloudTypesGroup_cloudTypes g').
Proof.
  intros part ws [l] w md g' H A. unfold CloudTypesGroup_append in A. cbn [CloudTypesGroup_cloudTypes cty_cldTp] in *. cbv zeta in A.
  destruct (Nat.leb cldTpMaxSize (List.length l)) eqn:E; [discriminate A|]. apply Nat.leb_gt in E. change cldTpMaxSize with places in E.
  destruct (List.rev l) as [|x y] eqn:R; [discriminate A|]. destruct (Distance_isReported (ctHt x)) eqn:D; [|discriminate A]. cbn [negb] in A.
  destruct (CloudType_fromString w) as [[c|]|] eqn:C; try discriminate A. cbn [bind] in A. apply cloud_type_parse in C.
  destruct (Distance_isReported (ctHt c)) eqn:Dc; [|discriminate A]. cbn [negb] in A. unfold array_push in A. rewrite (proj2 (Nat.ltb_lt _ 8)) in A by exact E. cbn [bind] in A. injection A as <-.
  cbn [CloudTypesGroup_cloudTypes cty_cldTp]. destruct H as [ws l P N B F|ps l P N F K].
  - apply Cloud_types_words; [exact P|destruct ws; discriminate| |].
    + pose proof (both_length _ _ _ _ _ F). rewrite app_length. cbn. lia.
    + apply Forall2_app; [exact F|]. constructor; [split; assumption|constructor].
  - exfalso. pose proof (run_heights _ _ (firstn_forall _ _ places _ (proj1 (pieces_all _) F)) K) as X. rewrite Forall_forall in X. rewrite (X x (last_of _ _ _ _ R)) in D. discriminate D.
Qed.
Lemma types_append : forall g w part md g', CloudTypesGroup_append g w part md = Ok (g', NOT_APPENDED) -> g' = g.
Proof.
  intros [l] w part md g' A. unfold CloudTypesGroup_append in A. cbv zeta in A. destruct (Nat.leb _ _) in A; [congruence|]. destruct (List.rev _) as [|x y] in A; [discriminate A|].
  destruct (negb _) in A; [congruence|]. destruct (CloudType_fromString w) as [[c|]|]; try discriminate A; cbn [bind] in A; [|congruence].
  destruct (negb _) in A; [congruence|]. destruct (array_push _ _ _); discriminate A.
Qed.
Lemma types_more : forall part now ws w c g, part = RP_RMK -> Assembled part now ws (GCloudTypes (mkCloudTypes g)) -> (List.length g < places)%nat -> g <> [] ->
  Forall (fun c => Distance_isReported (ctHt c) = true) g -> CloudText w c -> Distance_isReported (ctHt c) = true ->
  Assembled part now (ws ++ [w]) (GCloudTypes (mkCloudTypes (g ++ [c]))).
Proof.
  intros part now ws w c g P A B N F C D. refine (assembled_more part now ws w (GCloudTypes (mkCloudTypes g)) (GCloudTypes (mkCloudTypes (g ++ [c]))) A _). cbn [appended_as].
  unfold CloudTypesGroup_append. cbn [cty_cldTp]. cbv zeta. rewrite (proj2 (Nat.leb_gt cldTpMaxSize _)) by exact B.
  destruct (List.rev g) as [|x y] eqn:R.
  - destruct N. rewrite <- (rev_involutive g), R. reflexivity.
  - rewrite Forall_forall in F. rewrite (F x (last_of _ _ _ _ R)). cbn [negb]. rewrite (proj2 (cloud_type_parse w c) C). cbn [bind]. rewrite D. cbn [negb].
    unfold array_push. rewrite (proj2 (Nat.ltb_lt _ 8)) by exact B. reflexivity.
Qed.
Lemma types_made : forall now words l, Forall2 (fun w c => CloudText w c /\ Distance_isReported (ctHt c) = true) words l -> words <> [] -> (List.length words <= places)%nat ->
  Assembled RP_RMK now words (GCloudTypes (mkCloudTypes l)).
Proof.
  intros now words. induction words as [|w words IH] using rev_ind; intros l F N B; [contradiction|]. apply Forall2_app_inv_l in F. destruct F as (k & k' & F & F' & ->).
  inversion F' as [|? c ? z [C D] Z]; subst. inversion Z; subst. rewrite app_length in B. cbn in B. destruct words as [|x words].
  - inversion F; subst. cbn [app]. apply (assembled_first RP_RMK now w (GCloudTypes (mkCloudTypes [c]))). cbn [parsed_as]. apply types_first.
    apply Cloud_types_words; [reflexivity|discriminate|cbn; unfold places; lia|]. constructor; [split; assumption|constructor].
  - apply types_more; try assumption; try reflexivity.
    + apply IH; [exact F|discriminate|lia].
    + rewrite <- (both_length _ _ _ _ _ F). lia.
    + intros ->. inversion F.
    + clear - F. induction F as [|? ? ? ? [_ D]]; constructor; assumption.
Qed.
Theorem types_words : forall part now words l, (exists g, Assembled part now words (GCloudTypes g) /\ CloudTypesGroup_cloudTypes g = l) <-> Cloud_types part words l.
Proof.
  intros part now words l. split.
  - intros (g & H & <-). refine (assembled_kind part now (fun ws k => match k with GCloudTypes x => Cloud_types part ws (CloudTypesGroup_cloudTypes x) | _ => True end) _ _ words (GCloudTypes g) H).
    + intros w md [] _ P; try exact I. exact (proj1 (types_first _ _ _ _) P).
    + intros ws' w md [] [] _ IH T A; try exact I; try contradiction. exact (types_next _ _ _ _ _ _ IH A).
  - intros H. exists (mkCloudTypes l). split; [|reflexivity]. pose proof H as H0. destruct H as [ws l P N B F|ps l P N F K].
    + subst part. apply types_made; assumption.
    + refine (assembled_first part now _ (GCloudTypes (mkCloudTypes l)) _). cbn [parsed_as]. apply types_first. exact H0.
Qed.
Theorem result_types : forall sgn report limit r, parse sgn report limit = Ok r ->
  forall g part raw, In (mkGroupInfo (GCloudTypes g) part raw) (pr_groups r) -> raw <> "" -> Cloud_types part (words_of raw) (CloudTypesGroup_cloudTypes g).
Proof.
  intros sgn report limit r E g part raw Hi N.
  refine (Pf_WeatherWords.built_kind part (fun ws k => match k with GCloudTypes x => Cloud_types part ws (CloudTypesGroup_cloudTypes x) | _ => True end) _ _ _ _ _ (GCloudTypes g) (Pf_Built.built_from_words _ _ _ _ E _ _ _ Hi N)).
  - exact (fun _ => I).
  - intros w md [] P; try exact I. exact (proj1 (types_first _ _ _ _) P).
  - intros ws' w md [] [] _ IH A; try exact I; try contradiction. exact (types_next _ _ _ _ _ _ IH A).
  - intros ws' w part' md [] [] _ IH A; try exact I; try contradiction. cbn [appended_as] in A. apply types_append in A. subst. exact IH.
Qed.
Theorem clouds_example : exists r g h k l m,
  parse true "METAR KJFK 280551Z 24010KT 9999 BKN012CB 12/11 A3000 RMK CIG 005V010 RWY04R FEW014 V SCT 8/5/1 8NS070 3CI200=" 100 = Ok r
  /\ In (mkGroupInfo (GCloud g) RP_METAR "BKN012CB") (pr_groups r)
  /\ In (mkGroupInfo (GCloud h) RP_RMK "CIG 005V010 RWY04R") (pr_groups r)
  /\ In (mkGroupInfo (GCloud k) RP_RMK "FEW014 V SCT") (pr_groups r)
  /\ In (mkGroupInfo (GLowMidHighCloud m) RP_RMK "8/5/1") (pr_groups r)
  /\ In (mkGroupInfo (GCloudTypes l) RP_RMK "8NS070 3CI200") (pr_groups r)
  /\ k_cloud (sky_of g) = Some (mkCloudType Ct_CUMULONIMBUS (mkDist DM_NONE (Some 1200%N) FEET) 7)
  /\ k_maximum (sky_of h) = mkDist DM_NONE (Some 1000%N) FEET /\ k_runway (sky_of h) = Some (mkRunway 4 Rw_RIGHT)
  /\ k_amount (sky_of k) = Am_VARIABLE_FEW_SCATTERED
  /\ List.length (CloudTypesGroup_cloudTypes l) = 2%nat.
Proof.
  eexists.
  exists (mkCloud Cl_CLOUD_LAYER Am_BROKEN (mkDist DM_NONE (Some 1200%N) FEET) Distance_default Cv_CUMULONIMBUS None None CloudType_default ClI_NONE).
  exists (mkCloud Cl_VARIABLE_CEILING Am_NOT_REPORTED (mkDist DM_NONE (Some 500%N) FEET) (mkDist DM_NONE (Some 1000%N) FEET) Cv_NONE (Some (mkRunway 4 Rw_RIGHT)) None CloudType_default ClI_NONE).
  exists (mkCloud Cl_CLOUD_LAYER Am_VARIABLE_FEW_SCATTERED (mkDist DM_NONE (Some 1400%N) FEET) Distance_default Cv_NONE None None CloudType_default ClI_NONE).
  exists (mkCloudTypes [mkCloudType Ct_NIMBOSTRATUS (mkDist DM_NONE (Some 7000%N) FEET) 8; mkCloudType Ct_CIRRUS (mkDist DM_NONE (Some 20000%N) FEET) 3]).
  exists (mkLmh Lo_SC_NON_CUGEN Mi_NOT_OBSERVABLE Hi_CI_FIB_CI_UNC).
  split; [vm_compute; reflexivity|]. do 5 (split; [cbn; repeat (try (left; reflexivity); right)|]). repeat split; vm_compute; reflexivity.
Qed.
