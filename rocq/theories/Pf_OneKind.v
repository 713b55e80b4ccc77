(** C55: no word opens groups of two kinds, with five exceptions. *)
From Coq Require Import Lia Permutation.
From Verif Require Import Prim Lib Regex Float Values Weather Groups1 Groups2 Groups3 Groups4 Parser SpecRegex SpecOpenings.
From Verif Require Import Pf_Ok Pf_Caps Pf_Regex Pf_Total Pf_Kinds Pf_Layout Pf_Disjoint Pf_Openings Pf_OpeningWords.
Local Open Scope string_scope.

Lemma texts_in : forall l s, Lang (texts l) s -> In s l.
Proof.
  induction l as [|x l IH]; intros s H; unfold texts in H; cbn [map any fold_right] in H.
  - inversion H as [|k c E| | | | | | | | ]; subst. discriminate E.
  - inversion H as [| | |a b p L|a b p L| | | | | ]; subst; [left|right; exact (IH _ L)].
    revert s L H. clear. induction x as [|c x IH]; intros s L _; cbn [lit] in L.
    + inversion L. reflexivity.
    + inversion L as [| |a b p q A B| | | | | | | ]; subst. inversion A as [|k d E| | | | | | | | ]; subst. cbn [append]. f_equal; [|apply IH; [exact B|apply L_alt1; exact B]].
      unfold in_cls, in_range in E. cbn [existsb fst snd] in E. rewrite orb_false_r in E. apply andb_true_iff in E. destruct E as [E1 E2]. apply N.leb_le in E1, E2.
      assert (K : code c = code d) by (apply N.le_antisymm; assumption). unfold code in K. rewrite <- (ascii_N_embedding c), <- (ascii_N_embedding d). congruence.
Qed.
Definition shared_b (w : string) : bool := existsb (String.eqb w) shared_words.
Lemma clouds_nearby : forallb (fun w => negb (is_match (opening RP_RMK 6) w) || shared_b w) vicinity_words = true.
Proof. vm_compute. reflexivity. Qed.
Lemma both_kinds : forall w, Lang (opening RP_RMK 6) w -> Lang (opening RP_RMK 19) w -> In w shared_words.
Proof.
  intros w A B. apply texts_in in B. pose proof (proj1 (forallb_forall _ _) clouds_nearby _ B) as H. apply is_match_lang in A. cbv beta in H. rewrite A in H. exact (listed _ _ H).
Qed.
Lemma apart_below : forall part i j w, (i < j < 21)%nat -> Lang (opening part i) w -> Lang (opening part j) w -> shared part w /\ i = 6%nat /\ j = 19%nat.
Proof.
  intros part i j w B I J. pose proof (openings_apart part) as A. unfold all_apart in A. rewrite forallb_forall in A.
  assert (A1 : In i (List.seq 0 21)) by (apply in_seq; lia). pose proof (A _ A1) as K. rewrite forallb_forall in K.
  assert (A2 : In j (List.seq 0 21)) by (apply in_seq; lia). pose proof (K _ A2) as X. cbv beta in X. clear A K A1 A2.
  apply orb_true_iff in X. destruct X as [X|X]; [|destruct (apart_sound _ _ _ X I J)]. apply orb_true_iff in X. destruct X as [X|X].
  - apply negb_true_iff in X. apply Nat.ltb_ge in X. lia.
  - apply andb_true_iff in X. destruct X as [X Y]. apply andb_true_iff in X. destruct X as [X Z]. apply Nat.eqb_eq in Y, Z. subst. destruct part; try discriminate X.
    split; [split; [reflexivity|exact (both_kinds _ I J)]|auto].
Qed.
Lemma index_bound : forall g w part md, parsed_as g w part md -> (Group_index g < 21)%nat.
Proof. intros g w part md H; destruct g; cbn [Group_index]; try lia. destruct H. Qed.
Lemma same_kind : forall g h w part md, parsed_as g w part md -> parsed_as h w part md -> Group_index g = Group_index h -> g = h.
Proof. intros g h w part md G H E; destruct g, h; try discriminate E; cbn [parsed_as] in *; try contradiction; rewrite G in H; injection H as ->; reflexivity. Qed.
Lemma parsed_two : forall g h w part md, parsed_as g w part md -> parsed_as h w part md -> g = h
  \/ shared part w /\ (Group_index g = 6%nat /\ Group_index h = 19%nat \/ Group_index g = 19%nat /\ Group_index h = 6%nat).
Proof.
  intros g h w part md G H. destruct (lt_eq_lt_dec (Group_index g) (Group_index h)) as [[L|E]|L].
  - right. destruct (apart_below part _ _ w (conj L (index_bound _ _ _ _ H)) (opens _ _ _ _ G) (opens _ _ _ _ H)) as (K & A & B). auto.
  - left. exact (same_kind _ _ _ _ _ G H E).
  - right. destruct (apart_below part _ _ w (conj L (index_bound _ _ _ _ G)) (opens _ _ _ _ H) (opens _ _ _ _ G)) as (K & A & B). auto.
Qed.
Theorem one_kind : forall p q word part md g h, In p alternatives -> In q alternatives ->
  p word part md = Ok (Some g) -> q word part md = Ok (Some h) -> ~ shared part word -> g = h.
Proof.
  intros p q w part md g h P Q G H N. apply parsed_inv in G; [|exact P]. apply parsed_inv in H; [|exact Q]. destruct (parsed_two _ _ _ _ _ G H) as [E|[K _]]; [exact E|contradiction].
Qed.
Theorem two_kinds : forall p word part md g, shared part word -> In p alternatives -> p word part md = Ok (Some g) ->
  (exists c, g = GCloud c) \/ (exists v, g = GVicinity v).
Proof.
  intros p w part md g [-> I] P G. apply parsed_inv in G; [|exact P]. cbn in I.
  assert (C : exists c, CloudGroup_parse w RP_RMK md = Ok (Some c)) by (repeat (destruct I as [<-|I]; [eexists; vm_compute; reflexivity|]); destruct I).
  destruct C as (c & C). destruct (parsed_two g (GCloud c) w RP_RMK md G C) as [->|[_ [[A B]|[A B]]]]; [left; eauto|discriminate B|]. right. destruct g; try discriminate A. eauto.
Qed.

Lemma tried : forall p w part md, In p alternatives -> exists o, p w part md = Ok o.
Proof. intros p w part md I. pose proof (alternatives_ok p I w part md) as O. destruct (p w part md) as [o|]; [eauto|destruct O]. Qed.
Lemma first_of : forall w part md l, incl l alternatives -> exists g, parseAlternatives l w part md = Ok g
  /\ ((exists p, In p l /\ p w part md = Ok (Some g)) \/ g = GUnknown mkUnknown /\ forall p, In p l -> p w part md = Ok None).
Proof.
  intros w part md. induction l as [|p l IH]; intros I; cbn [parseAlternatives].
  - exists (GUnknown mkUnknown). split; [reflexivity|]. right. split; [reflexivity|]. intros p [].
  - destruct (tried p w part md (I _ (or_introl eq_refl))) as ([g|] & E); rewrite E; cbn [bind].
    + exists g. split; [reflexivity|]. left. exists p. split; [left; reflexivity|exact E].
    + destruct IH as (g & G & R); [intros q Q; apply I; right; exact Q|]. exists g. split; [exact G|]. destruct R as [(q & Q & F)|[U F]]; [left; exists q; split; [right; exact Q|exact F]|].
      right. split; [exact U|]. intros q [<-|Q]; [exact E|exact (F _ Q)].
Qed.
Theorem any_order : forall l word part md, Permutation l alternatives -> ~ shared part word -> parseAlternatives l word part md = GroupParser_parse word part md.
Proof.
  intros l w part md P N. destruct (first_of w part md l) as (g & G & A); [intros x X; exact (Permutation_in _ P X)|].
  destruct (first_of w part md alternatives (incl_refl _)) as (h & H & B). unfold GroupParser_parse. rewrite G, H. f_equal.
  destruct A as [(p & Ip & A)|[U A]], B as [(q & Iq & B)|[V B]].
  - exact (one_kind p q w part md g h (Permutation_in _ P Ip) Iq A B N).
  - rewrite (B p (Permutation_in _ P Ip)) in A. discriminate A.
  - rewrite (A q (Permutation_in _ (Permutation_sym P) Iq)) in B. discriminate B.
  - congruence.
Qed.
Lemma next_of : forall w part md k l i, incl l alternatives -> exists g, reparseAlternatives l i w part md k = Ok g
  /\ ((exists j p, nth_error l j = Some p /\ (i + j)%nat <> k /\ p w part md = Ok (Some g))
      \/ g = GUnknown mkUnknown /\ forall j p, nth_error l j = Some p -> (i + j)%nat <> k -> p w part md = Ok None).
Proof.
  intros w part md k. induction l as [|p l IH]; intros i I; cbn [reparseAlternatives].
  - exists (GUnknown mkUnknown). split; [reflexivity|]. right. split; [reflexivity|]. intros [|j] p X; discriminate X.
  - destruct (IH (S i)) as (g & G & R); [intros q Q; apply I; right; exact Q|].
    assert (T : (i = k \/ p w part md = Ok None) -> exists g, reparseAlternatives l (S i) w part md k = Ok g
      /\ ((exists j q, nth_error (p :: l) j = Some q /\ (i + j)%nat <> k /\ q w part md = Ok (Some g))
          \/ g = GUnknown mkUnknown /\ forall j q, nth_error (p :: l) j = Some q -> (i + j)%nat <> k -> q w part md = Ok None)).
    { intros D. exists g. split; [exact G|]. destruct R as [(j & q & Q & J & F)|[U F]].
      - left. exists (S j), q. repeat split; [exact Q|lia|exact F].
      - right. split; [exact U|]. intros [|j] q Q J; [injection Q as <-; destruct D as [D|D]; [lia|exact D]|]. apply (F j q Q). lia. }
    destruct (Nat.eqb i k) eqn:K; [apply Nat.eqb_eq in K; exact (T (or_introl K))|]. apply Nat.eqb_neq in K.
    destruct (tried p w part md (I _ (or_introl eq_refl))) as ([h|] & E); rewrite E; cbn [bind]; [|exact (T (or_intror E))].
    exists h. split; [reflexivity|]. left. exists 0%nat, p. repeat split; [lia|exact E].
Qed.
Theorem no_other_kind : forall word part md g, ~ shared part word -> GroupParser_parse word part md = Ok g ->
  GroupParser_reparse word part md g = Ok (GUnknown mkUnknown).
Proof.
  intros w part md g N H. rewrite GroupParser_reparse_eq. destruct (next_of w part md (Group_index g) alternatives 0 (incl_refl _)) as (h & E & R). rewrite E. f_equal.
  destruct R as [(j & p & P & J & F)|[U _]]; [|exact U]. exfalso. pose proof (index_of_alternative _ _ _ _ _ _ P F) as X. apply nth_error_In in P as Q. pose proof (parsed_inv _ _ _ _ _ Q F) as Fp.
  destruct (GroupParser_parse_inv _ _ _ _ H) as [[->|G] L].
  - pose proof (L j p ltac:(pose proof (index_bound _ _ _ _ Fp); cbn; lia) P) as Z. unfold rejects in Z. rewrite Z in F. discriminate F.
  - destruct (parsed_two _ _ _ _ _ G Fp) as [->|[K _]]; [cbn in J; lia|contradiction].
Qed.
Theorem both_kinds_read : forall word part md, shared part word ->
  (exists c, CloudGroup_parse word part md = Ok (Some c) /\ GroupParser_parse word part md = Ok (GCloud c))
  /\ (exists v, VicinityGroup_parse word part md = Ok (Some v) /\ forall c, GroupParser_reparse word part md (GCloud c) = Ok (GVicinity v)).
Proof.
  intros w part md Sh. pose proof Sh as [-> I]. cbn in I.
  assert (C : exists c, CloudGroup_parse w RP_RMK md = Ok (Some c)) by (clear Sh; repeat (destruct I as [<-|I]; [eexists; vm_compute; reflexivity|]); destruct I).
  assert (V : exists v, VicinityGroup_parse w RP_RMK md = Ok (Some v)) by (clear Sh C; repeat (destruct I as [<-|I]; [eexists; vm_compute; reflexivity|]); destruct I).
  clear I. destruct C as (c & C). destruct V as (v & V). split.
  - exists c. split; [exact C|]. destruct (first_of w RP_RMK md alternatives (incl_refl _)) as (g & G & _). unfold GroupParser_parse. rewrite G. f_equal.
    assert (A : rejects w RP_RMK md (alternative GCloud CloudGroup_parse) -> False) by (unfold rejects, alternative; rewrite C; discriminate).
    destruct (GroupParser_parse_inv _ _ _ _ G) as [[->|P] L].
    + destruct (A (L 6%nat _ ltac:(cbn; lia) eq_refl)).
    + destruct (parsed_two g (GCloud c) w RP_RMK md P C) as [E|[_ [[X Y]|[X Y]]]]; [exact E|discriminate Y|]. destruct (A (L 6%nat _ ltac:(rewrite X; lia) eq_refl)).
  - exists v. split; [exact V|]. intros c0. rewrite GroupParser_reparse_eq. destruct (next_of w RP_RMK md 6 alternatives 0 (incl_refl _)) as (g & G & R). cbn [Group_index]. rewrite G. f_equal.
    destruct R as [(j & p & P & J & F)|[_ F]].
    + pose proof (index_of_alternative _ _ _ _ _ _ P F) as X. apply nth_error_In in P. apply parsed_inv in F; [|exact P].
      destruct (parsed_two g (GVicinity v) w RP_RMK md F V) as [E|[_ [[Y Z]|[Y Z]]]]; [exact E|cbn in J; lia|discriminate Z].
    + specialize (F 19%nat (alternative GVicinity VicinityGroup_parse) eq_refl ltac:(lia)). unfold alternative in F. rewrite V in F. discriminate F.
Qed.
