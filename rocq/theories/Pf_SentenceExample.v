(** An example for C56. *)
From Verif Require Import Prim Lib Regex Float Values Weather Groups1 Groups2 Groups3 Groups4 Parser SpecTokens SpecReads SpecRegex SpecNumeral SpecTrend
  SpecAssembled SpecOpenings SpecSentence Pf_Regex Pf_Kinds Pf_OneKind Pf_TimeOnly Pf_Sentence.
Local Open Scope string_scope.

Definition issue_time : MetafTime := mkTime (Some 4%N) 16 0.
Definition issue_md : ReportMetadata := md_set_reportTime md_default issue_time.
Definition first_group (part : ReportPart) (w : string) : Group := match GroupParser_parse w part issue_md with Ok g => g | Bad _ => GUnknown mkUnknown end.
Definition next_group (part : ReportPart) (g : Group) (w : string) : Group := match Group_append g w part issue_md with Ok (g', _) => g' | Bad _ => GUnknown mkUnknown end.

Definition e_wind : Group := Eval vm_compute in next_group RP_METAR (first_group RP_METAR "12012MPS") "090V150".
Definition e_vis : Group := Eval vm_compute in first_group RP_METAR "1400".
Definition e_wx : Group := Eval vm_compute in first_group RP_METAR "+SN".
Definition e_cloud : Group := Eval vm_compute in first_group RP_METAR "BKN022".
Definition e_temp : Group := Eval vm_compute in first_group RP_METAR "M04/M07".
Definition e_press : Group := Eval vm_compute in first_group RP_METAR "Q1020".
Definition e_ao2 : Group := Eval vm_compute in first_group RP_RMK "AO2".
Definition e_fog : Group := Eval vm_compute in match VicinityGroup_parse "FG" RP_RMK issue_md with Ok (Some v) => GVicinity v | _ => GUnknown mkUnknown end.
Definition e_distant : Group := Eval vm_compute in next_group RP_RMK e_fog "DSNT".
Definition e_near0 : Group := Eval vm_compute in next_group RP_RMK e_distant "SE".
Definition e_near : Group := Eval vm_compute in next_group RP_RMK e_near0 "".
Definition unknown : Group := GUnknown mkUnknown.
Definition e_header : list (string * Group) :=
  [("METAR", keyword Kw_METAR); ("COR", keyword Kw_COR); ("LBBG", GLocation (mkLocation "LBBG")); ("041600Z", GReportTime (mkReportTime issue_time))].
Definition e_body : list (list string * Group) :=
  [(["12012MPS"; "090V150"], e_wind); (["1400"], e_vis); (["+SN"], e_wx); (["BKN022"], e_cloud); (["M04/M07"], e_temp); (["Q1020"], e_press)].
Definition e_remarks : list (list string * Group) :=
  [(["AO2"], e_ao2); (["PK"; "WND"], unknown); (["XYZ"], unknown); (["FG"; "DSNT"; "SE"], e_near)].
Definition e_report : string := "METAR COR LBBG 041600Z 12012MPS 090V150 1400 +SN BKN022 M04/M07 Q1020 RMK AO2 PK WND XYZ FG DSNT SE=".

Lemma assembled_first : forall part w i g p, nth_error alternatives i = Some p -> p w part issue_md = Ok (Some g) -> Assembled part (Some issue_time) [w] g.
Proof. intros part w i g p N P. exact (Assembled_first part (Some issue_time) w issue_md p g eq_refl (nth_error_In _ _ N) P). Qed.
Lemma assembled_next : forall part ws w g g', Assembled part (Some issue_time) ws g -> Group_append g w part issue_md = Ok (g', APPENDED) -> Assembled part (Some issue_time) (ws ++ [w]) g'.
Proof. intros part ws w g g' A N. apply (Assembled_more part (Some issue_time) ws w issue_md g g' A eq_refl N). Qed.
Lemma refused : forall part g g' w, Group_append g w part issue_md = Ok (g', NOT_APPENDED) -> refuses part (Some issue_time) g w g'.
Proof. intros part g g' w H md T. rewrite (append_time g w part md issue_md); [exact H|exact T]. Qed.
Lemma spoiled : forall part g w g', Group_append g w part issue_md = Ok (g', GROUP_INVALIDATED) -> spoils part (Some issue_time) g w.
Proof. intros part g w g' H md T. exists g'. rewrite (append_time g w part md issue_md); [exact H|exact T]. Qed.
Lemma not_read : forall part w, GroupParser_parse w part issue_md = Ok (GUnknown mkUnknown) -> unread part (Some issue_time) w.
Proof.
  intros part w H p md I T. rewrite (parse_time p w part md issue_md I T). destruct (tried p w part issue_md I) as ([g|] & E); [|exact E]. exfalso.
  destruct (first_of w part issue_md alternatives (incl_refl _)) as (h & Hh & R). unfold GroupParser_parse in H. rewrite H in Hh. injection Hh as <-.
  destruct R as [(q & Q & F)|[_ F]]; [apply parsed_inv in F; [destruct F|exact Q]|rewrite (F p I) in E; discriminate E].
Qed.
Ltac apart_words := left; intros [? X]; cbn in X; repeat (destruct X as [X|X]; [discriminate X|]); destruct X.
Ltac plain := intros k X; vm_compute in X; first [discriminate X|injection X as <-; split; [cbn; intuition discriminate|cbn; discriminate]].
Ltac one i g := apply Sentence_item; [apply (Item_read _ _ _ _ g g); [eapply (assembled_first _ _ i); [reflexivity|vm_compute; reflexivity]|apart_words|apply refused; vm_compute; reflexivity]|plain|].
Example e_read : Header RT_METAR (Some issue_time) e_header /\ well_formed RT_METAR (Some issue_time) e_body (Some e_remarks)
  /\ report_groups true e_report = (map fst e_header ++ text_of e_body ++ remark_words (Some e_remarks))%list.
Proof.
  split; [|split; [split|vm_compute; reflexivity]].
  - refine (Header_metar "METAR" Kw_METAR [("COR", keyword Kw_COR)] ("LBBG", _) ("041600Z", _) issue_time _ _ _ _).
    + left. split; [reflexivity|]. cbn. tauto.
    + right. left. reflexivity.
    + split; [|reflexivity]. apply is_match_lang. vm_compute. reflexivity.
    + exists "041600". split; [reflexivity|]. split; [|reflexivity]. exists "04", "16", "00", 4%N, 16%N, 0%N. repeat split; vm_compute; reflexivity.
  - apply Sentence_item.
    { apply (Item_read _ _ _ _ e_wind e_wind); [apply (assembled_next RP_METAR ["12012MPS"] "090V150" (first_group RP_METAR "12012MPS"))|apart_words|apply refused; vm_compute; reflexivity].
      - eapply (assembled_first _ _ 4); [reflexivity|vm_compute; reflexivity].
      - vm_compute. reflexivity. }
    { plain. }
    one 5%nat e_vis. one 7%nat e_wx. one 6%nat e_cloud. one 8%nat e_temp. one 9%nat e_press. apply Sentence_end.
  - one 0%nat e_ao2. apply Sentence_item; [|plain|].
    { eapply Item_spoiled; [apply (assembled_next RP_RMK ["PK"] "WND" (first_group RP_RMK "PK") (next_group RP_RMK (first_group RP_RMK "PK") "WND"))| |].
      - eapply (assembled_first _ _ 4); [reflexivity|vm_compute; reflexivity].
      - vm_compute. reflexivity.
      - intros [? X]. cbn in X. repeat (destruct X as [X|X]; [discriminate X|]). destruct X.
      - eapply (spoiled _ _ _ (next_group RP_RMK (next_group RP_RMK (first_group RP_RMK "PK") "WND") "XYZ")). vm_compute. reflexivity. }
    apply Sentence_item; [|plain|].
    { apply Item_unread. apply not_read. vm_compute. reflexivity. }
    apply Sentence_item; [|plain|apply Sentence_end].
    eapply Item_nearby.
    + split; [reflexivity|]. cbn. tauto.
    + apply (assembled_next RP_RMK ["FG"; "DSNT"] "SE" e_distant e_near0); [apply (assembled_next RP_RMK ["FG"] "DSNT" e_fog e_distant)|vm_compute; reflexivity].
      * eapply (assembled_first _ _ 19); [reflexivity|vm_compute; reflexivity].
      * vm_compute. reflexivity.
    + eapply (assembled_first RP_RMK "FG" 6 (first_group RP_RMK "FG")); [reflexivity|vm_compute; reflexivity].
    + eapply (spoiled _ _ _ (next_group RP_RMK (first_group RP_RMK "FG") "DSNT")). vm_compute. reflexivity.
    + apply refused. vm_compute. reflexivity.
Qed.
