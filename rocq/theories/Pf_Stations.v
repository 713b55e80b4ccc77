(** Proofs of C86 and C87. *)
From Coq Require Import String List ZArith Bool.
From Verif Require Import Prim Lib Float Values Summary Page SpecSumNumbers SpecSummary SpecPage SpecStations.
From Verif Require Import Pf_Page Pf_PageText Pf_PageWidget Pf_Summary.
Import ListNotations.
Local Open Scope string_scope.

Lemma key_eqb : forall a b, js_key_eqb a b = true <-> a = b.
Proof.
  intros [a|] [b|]; cbn [js_key_eqb]; try (split; [discriminate|discriminate]); [|split; reflexivity].
  rewrite String.eqb_eq. split; [intros ->; reflexivity|intros [= ->]; reflexivity].
Qed.
Lemma key_refl : forall a, js_key_eqb a a = true.
Proof. intros a. apply key_eqb. reflexivity. Qed.
Lemma key_neq : forall a b, js_key_eqb a b = false <-> a <> b.
Proof. intros a b. rewrite <- key_eqb. destruct (js_key_eqb a b); split; congruence. Qed.

(** ** Last and first elements *)
Definition lastf {A} (p : A -> bool) (l : list A) : option A := find p (rev l).
Lemma lastf_snoc : forall {A} (p : A -> bool) l x, lastf p (l ++ [x]) = if p x then Some x else lastf p l.
Proof. intros A p l x. unfold lastf. rewrite rev_app_distr. cbn [rev app find]. reflexivity. Qed.
Lemma lastf_of : forall {A} (p : A -> bool) (P : A -> Prop) l, (forall x, p x = true <-> P x) -> last_of P l (lastf p l).
Proof.
  intros A p P l E. induction l as [|x l IH] using rev_ind; [intros y []|].
  rewrite lastf_snoc. destruct (p x) eqn:B.
  - exists l, []. split; [reflexivity|]. split; [apply E, B|intros y []].
  - destruct (lastf p l) as [z|]; cbn [last_of] in *.
    + destruct IH as (b & a & -> & Pz & N). exists b, (a ++ [x])%list. split; [rewrite <- app_assoc; reflexivity|]. split; [exact Pz|].
      intros y I. apply in_app_or in I. destruct I as [I|[<- |[]]]; [exact (N y I)|]. intros Q. apply E in Q. congruence.
    + intros y I. apply in_app_or in I. destruct I as [I|[<- |[]]]; [exact (IH y I)|]. intros Q. apply E in Q. congruence.
Qed.
Lemma find_of : forall {A} (p : A -> bool) (P : A -> Prop) l, (forall x, p x = true <-> P x) -> first_of P l (find p l).
Proof.
  intros A p P l E. induction l as [|x l IH]; [intros y []|]. cbn [find]. destruct (p x) eqn:B.
  - exists [], l. split; [reflexivity|]. split; [apply E, B|intros y []].
  - destruct (find p l) as [z|]; cbn [first_of] in *.
    + destruct IH as (b & a & -> & Pz & N). exists (x :: b), a. split; [reflexivity|]. split; [exact Pz|].
      intros y [<- |I]; [intros Q; apply E in Q; congruence|exact (N y I)].
    + intros y [<- |I]; [intros Q; apply E in Q; congruence|exact (IH y I)].
Qed.
Lemma find_snoc : forall {A} (p : A -> bool) l x, find p (l ++ [x]) = match find p l with Some y => Some y | None => if p x then Some x else None end.
Proof. intros A p l x. induction l as [|y l IH]; cbn [find app]; [destruct (p x); reflexivity|]. destruct (p y); [reflexivity|exact IH]. Qed.
Lemma lastf_find : forall {A} (p : A -> bool) l, lastf p l = None <-> find p l = None.
Proof.
  intros A p l. induction l as [|x l IH] using rev_ind; [split; reflexivity|]. rewrite lastf_snoc, find_snoc.
  destruct (find p l), (lastf p l), (p x); split; intros H; try discriminate; try reflexivity; try (apply IH; assumption);
    try (apply IH in H; discriminate H); exfalso; destruct IH as [X Y]; try (specialize (X eq_refl); discriminate); specialize (Y eq_refl); discriminate.
Qed.

(** ** The children of an element *)
Definition named (name : string) (c : js_node) : bool := (fst c =? name)%string.
Definition child (name : string) (e : list js_node) : option string := option_map snd (lastf (named name) e).
Lemma child_content : forall name e, content name e (child name e).
Proof.
  intros name e. exists (lastf (named name) e). split; [|reflexivity]. apply lastf_of. intros x. apply String.eqb_eq.
Qed.
Lemma last_of_fun : forall {A} (P : A -> Prop) l o o', last_of P l o -> last_of P l o' -> o = o'.
Proof.
  intros A P l. induction l as [|x l IH] using rev_ind; intros o o' L L'.
  - destruct o as [y|]; [destruct L as (b & a & E & _); destruct b; discriminate E|].
    destruct o' as [y|]; [destruct L' as (b & a & E & _); destruct b; discriminate E|reflexivity].
  - assert (X : forall q, last_of P (l ++ [x])%list q -> q = Some x /\ P x \/ ~ P x /\ last_of P l q).
    { intros q Lq. destruct q as [y|].
      - destruct Lq as (b & a & E & Py & N). destruct a as [|z a] using rev_ind.
        + apply app_inj_tail in E. destruct E as [_ E]. subst y. left. split; [reflexivity|exact Py].
        + clear IHa. right. change (b ++ y :: a ++ [z])%list with (b ++ (y :: a) ++ [z])%list in E. rewrite app_assoc in E. apply app_inj_tail in E.
          destruct E as [E F]. subst z. split; [apply N, in_or_app; right; left; reflexivity|]. exists b, a. split; [exact E|]. split; [exact Py|].
          intros t I. apply N, in_or_app. left. exact I.
      - right. split; [apply Lq, in_or_app; right; left; reflexivity|]. intros t I. apply Lq, in_or_app. left. exact I. }
    destruct (X o L) as [[-> Px]|[Nx L1]], (X o' L') as [[-> Px']|[Nx' L2]]; try reflexivity; try contradiction. exact (IH o o' L1 L2).
Qed.
Lemma content_fun : forall name e v, content name e v <-> child name e = v.
Proof.
  intros name e v. split; [|intros <-; apply child_content]. intros (c & L & ->). unfold child. f_equal.
  refine (last_of_fun _ _ _ _ _ L). apply lastf_of. intros x. apply String.eqb_eq.
Qed.

Lemma child_snoc : forall name e n v, child name (e ++ [(n, v)]) = if (n =? name)%string then Some v else child name e.
Proof. intros name e n v. unfold child. rewrite lastf_snoc. change (named name (n, v)) with (n =? name)%string. destruct (n =? name)%string; reflexivity. Qed.
Lemma report_children : forall e,
  getReportFromNodeList e = mkReport (child "station_id" e) (child "latitude" e) (child "longitude" e) (child "raw_text" e).
Proof.
  intros e. induction e as [|[n v] e IH] using rev_ind; [reflexivity|]. unfold getReportFromNodeList in *. rewrite fold_left_app, IH.
  cbn [fold_left]. rewrite !child_snoc. cbn [rp_id rp_lat rp_lon rp_report].
  destruct (String.eqb_spec n "raw_text") as [->|N1]; [reflexivity|].
  destruct (String.eqb_spec n "station_id") as [->|N2]; [reflexivity|].
  destruct (String.eqb_spec n "latitude") as [->|N3]; [reflexivity|].
  destruct (String.eqb_spec n "longitude") as [->|N4]; [reflexivity|]. reflexivity.
Qed.
Lemma station_children : forall e, getStationFromNodeList e = mkStation (child "station_id" e) (child "site" e).
Proof.
  intros e. induction e as [|[n v] e IH] using rev_ind; [reflexivity|]. unfold getStationFromNodeList in *. rewrite fold_left_app, IH.
  cbn [fold_left]. rewrite !child_snoc. cbn [st_id st_name].
  destruct (String.eqb_spec n "station_id") as [->|N2]; [reflexivity|].
  destruct (String.eqb_spec n "site") as [->|N3]; [reflexivity|]. reflexivity.
Qed.

(** ** Maps *)
Lemma get_set : forall {V} (m : js_map V) k v k', js_get (js_set m k v) k' = if js_key_eqb k k' then Some v else js_get m k'.
Proof.
  intros V m k v k'. induction m as [|[a x] m IH]; cbn [js_set js_get]; [reflexivity|].
  destruct (js_key_eqb a k) eqn:A; cbn [js_get].
  - apply key_eqb in A. subst a. destruct (js_key_eqb k k'); reflexivity.
  - rewrite IH. destruct (js_key_eqb a k') eqn:B; [|reflexivity]. apply key_eqb in B. subst a.
    destruct (js_key_eqb k k') eqn:C; [|reflexivity]. apply key_eqb in C. subst k. rewrite key_refl in A. discriminate A.
Qed.
Lemma get_keys : forall {V} (m : js_map V) k, (exists v, js_get m k = Some v) <-> In k (map fst m).
Proof.
  intros V m k. induction m as [|[a x] m IH]; cbn [js_get map fst In]; [split; [intros [v D]; discriminate D|intros []]|].
  destruct (js_key_eqb a k) eqn:A.
  - apply key_eqb in A. subst a. split; [intros _; left; reflexivity|intros _; exists x; reflexivity].
  - rewrite IH. apply key_neq in A. split; [intros I; right; exact I|intros [E|I]; [congruence|exact I]].
Qed.
Lemma set_keys : forall {V} (m : js_map V) k v, map fst (js_set m k v) = if existsb (js_key_eqb k) (map fst m) then map fst m else (map fst m ++ [k])%list.
Proof.
  intros V m k v. induction m as [|[a x] m IH]; cbn [js_set map fst existsb app]; [reflexivity|].
  destruct (js_key_eqb a k) eqn:A.
  - apply key_eqb in A. subst a. rewrite key_refl. reflexivity.
  - assert (B : js_key_eqb k a = false) by (apply key_neq; apply key_neq in A; congruence). rewrite B. cbn [map fst orb]. rewrite IH.
    destruct (existsb (js_key_eqb k) (map fst m)); reflexivity.
Qed.
Lemma in_existsb : forall k l, existsb (js_key_eqb k) l = true <-> In k l.
Proof.
  intros k l. rewrite existsb_exists. split; [intros (x & I & E); apply key_eqb in E; subst x; exact I|intros I; exists k; split; [exact I|apply key_refl]].
Qed.
Lemma set_occurrences : forall {V} (m : js_map V) l k v, first_occurrences l (map fst m) -> first_occurrences (l ++ [k])%list (map fst (js_set m k v)).
Proof.
  intros V m l k v F. rewrite set_keys. destruct (existsb (js_key_eqb k) (map fst m)) eqn:E.
  - apply fo_again; [exact F|]. apply in_existsb, E.
  - apply fo_new; [exact F|]. intros I. apply in_existsb in I. congruence.
Qed.
Lemma set_known : forall {V} (m : js_map V) k v e, js_get m k = Some e -> map fst (js_set m k v) = map fst m.
Proof.
  intros V m k v e G. rewrite set_keys. assert (I : In k (map fst m)) by (apply get_keys; exists e; exact G). apply in_existsb in I. rewrite I. reflexivity.
Qed.
Lemma occurrences_nodup : forall {A} (l k : list A), first_occurrences l k -> NoDup k.
Proof.
  intros A l k F. induction F as [|l k x F IH I|l k x F IH I]; [constructor|exact IH|]. apply NoDup_rev in IH. rewrite <- (rev_involutive (k ++ [x])). apply NoDup_rev.
  rewrite rev_app_distr. cbn [rev app]. constructor; [|exact IH]. intros J. apply I. rewrite in_rev. exact J.
Qed.
Lemma occurrences_in : forall {A} (l k : list A), first_occurrences l k -> forall x, In x k <-> In x l.
Proof.
  intros A l k F. induction F as [|l k y F IH I|l k y F IH I]; intros x; [reflexivity| |]; rewrite ?in_app_iff, IH; [|reflexivity].
  split; [intros J; left; exact J|intros [J|[<- |[]]]; [exact J|apply IH, I]].
Qed.
Lemma in_get : forall {V} (m : js_map V) k v, NoDup (map fst m) -> In (k, v) m -> js_get m k = Some v.
Proof.
  intros V m k v. induction m as [|[a x] m IH]; intros N I; [destruct I|]. cbn [map fst] in N. apply NoDup_cons_iff in N. destruct N as [N1 N2].
  cbn [js_get]. destruct I as [[= -> ->]|I]; [rewrite key_refl; reflexivity|].
  destruct (js_key_eqb a k) eqn:A; [|exact (IH N2 I)]. apply key_eqb in A. subst a. exfalso. apply N1. apply (in_map fst) in I. exact I.
Qed.

(** ** The three steps *)
Definition on (id : option string) (e : list js_node) : bool := js_key_eqb (child "station_id" e) id.
Lemma on_about : forall id e, on id e = true <-> about id e.
Proof. intros id e. unfold on, about. rewrite key_eqb, content_fun. reflexivity. Qed.

Definition from_metar {D} (dist : option string -> option string -> D) (e : list js_node) : StationData D :=
  mkStationData (Some "") (child "latitude" e) (child "longitude" e) (dist (child "latitude" e) (child "longitude" e)) (child "raw_text" e) (Some "").
Definition from_taf {D} (dist : option string -> option string -> D) (e t : list js_node) : StationData D :=
  mkStationData (Some "") (child "latitude" e) (child "longitude" e) (dist (child "latitude" e) (child "longitude" e)) (Some "") (child "raw_text" t).
Definition with_taf {D} (e : StationData D) (t : list js_node) : StationData D :=
  mkStationData (sd_name e) (sd_lat e) (sd_lon e) (sd_distKm e) (sd_metar e) (child "raw_text" t).
Definition with_name {D} (e : StationData D) (t : list js_node) : StationData D :=
  mkStationData (child "site" t) (sd_lat e) (sd_lon e) (sd_distKm e) (sd_metar e) (sd_taf e).

Definition metar_step {D} (dist : option string -> option string -> D) (m : js_map (StationData D)) (nodes : list js_node) :=
  js_set m (child "station_id" nodes) (from_metar dist nodes).
Definition taf_step {D} (dist : option string -> option string -> D) (m : js_map (StationData D)) (nodes : list js_node) :=
  match js_get m (child "station_id" nodes) with
  | Some e => js_set m (child "station_id" nodes) (with_taf e nodes)
  | None => js_set m (child "station_id" nodes) (from_taf dist nodes nodes)
  end.
Definition name_step {D} (m : js_map (StationData D)) (nodes : list js_node) :=
  match js_get m (child "station_id" nodes) with
  | Some e => js_set m (child "station_id" nodes) (with_name e nodes)
  | None => m
  end.
Lemma fold_ext : forall {A B} (f g : A -> B -> A) l a, (forall a b, f a b = g a b) -> fold_left f l a = fold_left g l a.
Proof. intros A B f g l. induction l as [|b l IH]; intros a E; cbn [fold_left]; [reflexivity|]. rewrite E. apply IH, E. Qed.
Lemma steps : forall {D} (dist : option string -> option string -> D) metars tafs stations,
  addStationNames (AWCdataToMap dist metars tafs) stations = fold_left name_step stations (fold_left (taf_step dist) tafs (fold_left (metar_step dist) metars [])).
Proof.
  intros D dist metars tafs stations. unfold addStationNames, AWCdataToMap. cbv zeta.
  rewrite (fold_ext _ (metar_step dist) metars).
  2:{ intros a b. rewrite report_children. reflexivity. }
  rewrite (fold_ext _ (taf_step dist) tafs).
  2:{ intros a b. rewrite report_children. cbn [rp_id rp_lat rp_lon rp_report]. unfold taf_step. destruct (js_get a (child "station_id" b)); reflexivity. }
  apply fold_ext. intros a b. rewrite station_children. cbn [st_id st_name]. reflexivity.
Qed.

Lemma metar_get : forall {D} (dist : option string -> option string -> D) l id,
  js_get (fold_left (metar_step dist) l []) id = option_map (from_metar dist) (lastf (on id) l).
Proof.
  intros D dist l id. induction l as [|x l IH] using rev_ind; [reflexivity|]. rewrite fold_left_app, lastf_snoc. cbn [fold_left]. unfold metar_step at 1. rewrite get_set, IH.
  unfold on at 2. destruct (js_key_eqb (child "station_id" x) id); reflexivity.
Qed.
Lemma metar_keys : forall {D} (dist : option string -> option string -> D) l, first_occurrences (map (child "station_id") l) (map fst (fold_left (metar_step dist) l [])).
Proof.
  intros D dist l. induction l as [|x l IH] using rev_ind; [constructor|]. rewrite fold_left_app, map_app. cbn [fold_left map]. apply set_occurrences, IH.
Qed.
Lemma taf_get : forall {D} (dist : option string -> option string -> D) m l id,
  js_get (fold_left (taf_step dist) l m) id =
  match js_get m id, lastf (on id) l with
  | Some e, Some t => Some (with_taf e t)
  | Some e, None => Some e
  | None, Some t => match find (on id) l with Some f => Some (from_taf dist f t) | None => None end
  | None, None => None
  end.
Proof.
  intros D dist m l id. induction l as [|x l IH] using rev_ind; [cbn; destruct (js_get m id); reflexivity|].
  rewrite fold_left_app, lastf_snoc, find_snoc. cbn [fold_left]. unfold taf_step at 1.
  assert (ON : on id x = js_key_eqb (child "station_id" x) id) by reflexivity.
  pose proof (lastf_find (on id) l) as LF.
  destruct (js_get (fold_left (taf_step dist) l m) (child "station_id" x)) as [e|] eqn:G; rewrite get_set, <- ON; destruct (on id x) eqn:X.
  - symmetry in ON; apply key_eqb in ON. subst id. rewrite G in IH. destruct (js_get m (child "station_id" x)) as [q|], (lastf (on (child "station_id" x)) l) as [t|].
    + injection IH as ->. reflexivity.
    + injection IH as ->. reflexivity.
    + destruct (find (on (child "station_id" x)) l) as [f|]; [|discriminate IH]. injection IH as ->. reflexivity.
    + discriminate IH.
  - rewrite IH. destruct (js_get m id), (lastf (on id) l); try reflexivity. destruct (find (on id) l) as [f|]; [reflexivity|]. destruct LF as [_ LF]. specialize (LF eq_refl). discriminate LF.
  - symmetry in ON; apply key_eqb in ON. subst id. rewrite G in IH. destruct (js_get m (child "station_id" x)) as [q|], (lastf (on (child "station_id" x)) l) as [t|]; try discriminate IH.
    + destruct (find (on (child "station_id" x)) l) as [f|]; [discriminate IH|]. destruct LF as [_ LF]. specialize (LF eq_refl). discriminate LF.
    + destruct LF as [LF _]. rewrite (LF eq_refl). reflexivity.
  - rewrite IH. destruct (js_get m id), (lastf (on id) l); try reflexivity. destruct (find (on id) l) as [f|]; [reflexivity|]. destruct LF as [_ LF]. specialize (LF eq_refl). discriminate LF.
Qed.
Lemma taf_keys : forall {D} (dist : option string -> option string -> D) m l k, first_occurrences k (map fst m) ->
  first_occurrences (k ++ map (child "station_id") l)%list (map fst (fold_left (taf_step dist) l m)).
Proof.
  intros D dist m l k F. induction l as [|x l IH] using rev_ind; [cbn; rewrite app_nil_r; exact F|]. rewrite fold_left_app, map_app, app_assoc. cbn [fold_left map].
  unfold taf_step at 1. destruct (js_get (fold_left (taf_step dist) l m) (child "station_id" x)); apply set_occurrences, IH.
Qed.
Lemma name_get : forall {D} (m : js_map (StationData D)) l id,
  js_get (fold_left name_step l m) id =
  match js_get m id, lastf (on id) l with
  | Some e, Some t => Some (with_name e t)
  | o, _ => o
  end.
Proof.
  intros D m l id. induction l as [|x l IH] using rev_ind; [cbn; destruct (js_get m id); reflexivity|].
  rewrite fold_left_app, lastf_snoc. cbn [fold_left]. unfold name_step at 1.
  assert (ON : on id x = js_key_eqb (child "station_id" x) id) by reflexivity.
  destruct (js_get (fold_left name_step l m) (child "station_id" x)) as [e|] eqn:G.
  - rewrite get_set, <- ON. destruct (on id x) eqn:X; [|exact IH]. symmetry in ON; apply key_eqb in ON. subst id. rewrite G in IH.
    destruct (js_get m (child "station_id" x)) as [q|]; [|discriminate IH]. destruct (lastf (on (child "station_id" x)) l) as [t|]; injection IH as ->; reflexivity.
  - rewrite IH. destruct (on id x) eqn:X; [|reflexivity]. symmetry in ON; apply key_eqb in ON. subst id. rewrite G in IH.
    destruct (js_get m (child "station_id" x)) as [q|]; [|reflexivity]. destruct (lastf (on (child "station_id" x)) l) as [t|]; discriminate IH.
Qed.
Lemma name_keys : forall {D} (m : js_map (StationData D)) l, map fst (fold_left name_step l m) = map fst m.
Proof.
  intros D m l. induction l as [|x l IH] using rev_ind; [reflexivity|]. rewrite fold_left_app. cbn [fold_left]. unfold name_step at 1.
  destruct (js_get (fold_left name_step l m) (child "station_id" x)) as [e|] eqn:G; [|exact IH]. rewrite (set_known _ _ _ _ G). exact IH.
Qed.

Theorem station_ids : forall (D : Type) (distance : option string -> option string -> D) metars tafs stations, exists ids,
  Forall2 about ids (metars ++ tafs)%list
  /\ first_occurrences ids (map fst (addStationNames (AWCdataToMap distance metars tafs) stations)).
Proof.
  intros D dist metars tafs stations. exists (map (child "station_id") (metars ++ tafs)%list). split.
  - induction (metars ++ tafs)%list as [|x l IH]; constructor; [apply on_about, key_refl|exact IH].
  - rewrite steps, name_keys, map_app. apply taf_keys, metar_keys.
Qed.
Lemma ids_nodup : forall (D : Type) (distance : option string -> option string -> D) metars tafs stations,
  NoDup (map fst (addStationNames (AWCdataToMap distance metars tafs) stations)).
Proof. intros D dist metars tafs stations. destruct (station_ids D dist metars tafs stations) as (ids & _ & F). exact (occurrences_nodup _ _ F). Qed.
Theorem station_once : forall (D : Type) (distance : option string -> option string -> D) metars tafs stations,
  NoDup (map fst (addStationNames (AWCdataToMap distance metars tafs) stations))
  /\ forall id, In id (map fst (addStationNames (AWCdataToMap distance metars tafs) stations)) <-> exists e, In e (metars ++ tafs)%list /\ about id e.
Proof.
  intros D dist metars tafs stations. split; [apply ids_nodup|]. intros id. rewrite steps, name_keys.
  rewrite (occurrences_in _ _ (taf_keys dist _ tafs _ (metar_keys dist metars))), <- map_app, in_map_iff.
  split; intros (e & A & B); exists e; split; try assumption; [apply on_about, key_eqb, A|apply content_fun, B].
Qed.
Theorem stations_told : forall (D : Type) (distance : option string -> option string -> D) metars tafs stations id d,
  In (id, d) (addStationNames (AWCdataToMap distance metars tafs) stations) -> station_data distance metars tafs stations id d.
Proof.
  intros D dist metars tafs stations id d I. apply in_get in I; [|apply ids_nodup]. rewrite steps, name_get, taf_get, metar_get in I.
  pose proof (lastf_of (on id) (about id) metars (on_about id)) as L1. pose proof (lastf_of (on id) (about id) tafs (on_about id)) as L2.
  pose proof (lastf_of (on id) (about id) stations (on_about id)) as L3. pose proof (find_of (on id) (about id) tafs (on_about id)) as L4.
  pose proof (lastf_find (on id) tafs) as LF.
  destruct (lastf (on id) metars) as [mt|] eqn:E1; cbn [option_map] in I.
  - exists (Some mt), (lastf (on id) tafs), (lastf (on id) stations), mt.
    destruct (lastf (on id) tafs) as [t|], (lastf (on id) stations) as [s|]; injection I as <-;
      cbn [told sd_metar sd_taf sd_name sd_lat sd_lon sd_distKm with_taf with_name from_metar];
      repeat (apply conj); try assumption; try (left; reflexivity); try reflexivity; apply child_content.
  - destruct (lastf (on id) tafs) as [t|] eqn:E2; [|discriminate I]. destruct (find (on id) tafs) as [f|] eqn:E4; [|destruct LF as [_ LF]; specialize (LF eq_refl); discriminate LF].
    exists None, (Some t), (lastf (on id) stations), f.
    destruct (lastf (on id) stations) as [s|]; injection I as <-;
      cbn [told sd_metar sd_taf sd_name sd_lat sd_lon sd_distKm with_taf with_name from_taf];
      repeat (apply conj); try assumption; try (right; split; [reflexivity|assumption]); try reflexivity; apply child_content.
Qed.

(** ** The page *)
Lemma station_shown : forall (D : Type) clock pow sgn (distance_text : D -> string) year month day imperial (d : StationData D) metar taf w,
  sd_metar d = Some metar -> sd_taf d = Some taf -> getCurrentWeather pow sgn metar taf year month day imperial = Ok w ->
  exists item, displayWeatherData clock (sd_name d) (distance_text (sd_distKm d)) (adaptCurrentWeather w js_valueNotSpecified) imperial = Ok item
    /\ station_item clock pow sgn distance_text year month day imperial d item.
Proof.
  intros D clock pow sgn dt year month day imperial d metar taf w M T W.
  destruct (widget_shown imperial w) as (widget & E1 & _). destruct (text_shown clock imperial w) as (texts & lines & E2 & _).
  unfold displayWeatherData. rewrite E1, E2. cbn [bind]. eexists. split; [reflexivity|].
  exists metar, taf, w, widget, (broken lines). do 5 (split; [assumption|]). unfold contains, element.
  set (nm := match sd_name d with Some n => if n =? "" then "NAME UNKNOWN" else n | None => "undefined" end).
  assert (A : forall k n, nm = n -> exists before after,
    "<div class=""weatherdataitem"">" ++ "<div class=""weatherstation"">" ++ nm ++ k = before ++ ("<" ++ "div" ++ " class=""" ++ "weatherstation" ++ """>" ++ n) ++ after).
  { intros k n <-. exists "<div class=""weatherdataitem"">", k. rewrite !app_assoc_s. reflexivity. }
  split; [|split; [|split]].
  - exists ("<div class=""weatherdataitem"">" ++ "<div class=""weatherstation"">" ++ nm ++ " (" ++ dt (sd_distKm d) ++ " away)" ++ "</div>"),
      ("<div class=""weathertext"">" ++ broken lines ++ "</div>" ++ "</div>").
    rewrite !app_assoc_s. reflexivity.
  - exists ("<div class=""weatherdataitem"">" ++ "<div class=""weatherstation"">" ++ nm ++ " (" ++ dt (sd_distKm d) ++ " away)" ++ "</div>" ++ "<div class=""widget"">" ++ widget ++ "</div>"),
      "</div>".
    rewrite !app_assoc_s. reflexivity.
  - intros name N NE. assert (X : nm = name) by (unfold nm; rewrite N; destruct (String.eqb_spec name ""); [contradiction|reflexivity]).
    rewrite X. exists "<div class=""weatherdataitem"">", ("<div class=""widget"">" ++ widget ++ "</div>" ++ "<div class=""weathertext"">" ++ broken lines ++ "</div>" ++ "</div>").
    rewrite !app_assoc_s. reflexivity.
  - intros N. assert (X : nm = "NAME UNKNOWN") by (unfold nm; rewrite N; reflexivity).
    rewrite X. exists "<div class=""weatherdataitem"">", ("<div class=""widget"">" ++ widget ++ "</div>" ++ "<div class=""weathertext"">" ++ broken lines ++ "</div>" ++ "</div>").
    rewrite !app_assoc_s. reflexivity.
Qed.

Theorem stations_shown : forall (pow : flt -> flt -> flt), pow_tame pow ->
  forall (D : Type) clock sgn (distance_text : D -> string) year month day imperial (data rest : list (option string * StationData D)),
    Forall (fun kd => complete (snd kd)) data ->
    (rest = [] \/ exists k d after, rest = (k, d) :: after /\ ~ complete d) ->
    exists items, displayStations clock pow sgn distance_text year month day imperial (data ++ rest)%list = (items, match rest with [] => None | _ => Some Throw end)
      /\ Forall2 (fun kd item => station_item clock pow sgn distance_text year month day imperial (snd kd) item) data items.
Proof.
  intros pow PT D clock sgn dt year month day imperial data rest C R. induction C as [|[k d] data C _ IH].
  - exists []. split; [|constructor]. destruct R as [-> |(k & d & after & -> & N)]; [reflexivity|]. cbn [app displayStations].
    destruct (sd_metar d) as [m|] eqn:M, (sd_taf d) as [t|] eqn:T; try reflexivity. exfalso. apply N. unfold complete. rewrite M, T. split; discriminate.
  - destruct IH as (items & E & F). cbn [snd] in C. destruct C as [C1 C2].
    destruct (sd_metar d) as [m|] eqn:M; [|contradiction]. destruct (sd_taf d) as [t|] eqn:T; [|contradiction].
    destruct (summary_returns pow PT sgn m t year month day imperial) as [w W].
    destruct (station_shown D clock pow sgn dt year month day imperial d m t w M T W) as (item & I & S).
    exists (item :: items). split; [|constructor; [exact S|exact F]]. cbn [app displayStations]. rewrite M, T, W. cbn [bind]. rewrite I, E. reflexivity.
Qed.
Theorem all_stations_shown : forall (pow : flt -> flt -> flt), pow_tame pow ->
  forall (D : Type) clock sgn (distance_text : D -> string) year month day imperial (data : list (option string * StationData D)),
    Forall (fun kd => complete (snd kd)) data ->
    exists items, displayStations clock pow sgn distance_text year month day imperial data = (items, None)
      /\ Forall2 (fun kd item => station_item clock pow sgn distance_text year month day imperial (snd kd) item) data items.
Proof.
  intros pow PT D clock sgn dt year month day imperial data C.
  destruct (stations_shown pow PT D clock sgn dt year month day imperial data [] C (or_introl eq_refl)) as (items & E & F).
  rewrite app_nil_r in E. exists items. split; assumption.
Qed.
Theorem first_stations_shown : forall (pow : flt -> flt -> flt), pow_tame pow ->
  forall (D : Type) clock sgn (distance_text : D -> string) year month day imperial (data after : list (option string * StationData D)) id d,
    Forall (fun kd => complete (snd kd)) data -> ~ complete d ->
    exists items, displayStations clock pow sgn distance_text year month day imperial (data ++ (id, d) :: after)%list = (items, Some Throw)
      /\ Forall2 (fun kd item => station_item clock pow sgn distance_text year month day imperial (snd kd) item) data items.
Proof.
  intros pow PT D clock sgn dt year month day imperial data after id d C N.
  exact (stations_shown pow PT D clock sgn dt year month day imperial data ((id, d) :: after) C (or_intror (ex_intro _ id (ex_intro _ d (ex_intro _ after (conj eq_refl N)))))).
Qed.
Lemma content_last : forall name e v, child name e = v -> content name e v.
Proof. intros name e v <-. apply child_content. Qed.
Theorem complete_iff : forall (D : Type) (distance : option string -> option string -> D) metars tafs stations,
  (forall e, In e (metars ++ tafs)%list -> exists text, content "raw_text" e (Some text)) ->
  Forall (fun kd => complete (snd kd)) (addStationNames (AWCdataToMap distance metars tafs) stations).
Proof.
  intros D dist metars tafs stations H. rewrite Forall_forall. intros [id d] I. cbn [snd]. apply stations_told in I.
  destruct I as (mt & tf & st & place & L1 & L2 & _ & _ & T1 & T2 & _). split.
  - destruct mt as [e|]; cbn [told] in T1; [|rewrite T1; discriminate]. destruct L1 as (b & a & -> & _). destruct (H e) as [x X]; [apply in_or_app; left; apply in_or_app; right; left; reflexivity|].
    apply content_fun in T1, X. congruence.
  - destruct tf as [e|]; cbn [told] in T2; [|rewrite T2; discriminate]. destruct L2 as (b & a & -> & _). destruct (H e) as [x X]; [apply in_or_app; right; apply in_or_app; right; left; reflexivity|].
    apply content_fun in T2, X. congruence.
Qed.
Theorem page_shown : forall (pow : flt -> flt -> flt), pow_tame pow ->
  forall (D : Type) clock sgn (distance : option string -> option string -> D) (distance_text : D -> string) year month day imperial metars tafs stations,
    (forall e, In e (metars ++ tafs)%list -> exists text, content "raw_text" e (Some text)) ->
    exists items, displayStations clock pow sgn distance_text year month day imperial (addStationNames (AWCdataToMap distance metars tafs) stations) = (items, None)
      /\ Forall2 (fun kd item => station_item clock pow sgn distance_text year month day imperial (snd kd) item)
           (addStationNames (AWCdataToMap distance metars tafs) stations) items.
Proof.
  intros pow PT D clock sgn dist dt year month day imperial metars tafs stations H.
  apply all_stations_shown; [exact PT|]. apply complete_iff, H.
Qed.
Lemma undefined_shown : forall clock distStr w imperial item, displayWeatherData clock None distStr w imperial = Ok item ->
  contains (element "div" "weatherstation" ("undefined (" ++ distStr ++ " away)")) item.
Proof.
  intros clock distStr w imperial item E. unfold displayWeatherData in E. destruct (makeWeatherWidget w imperial) as [widget|]; [|discriminate E]. cbn [bind] in E.
  destruct (currentWeatherToHTML clock w imperial "<br>") as [text|]; [|discriminate E]. cbn [bind] in E. apply Pf_ExShown.ok_same in E. rewrite <- E. clear E item.
  exists "<div class=""weatherdataitem"">", ("<div class=""widget"">" ++ widget ++ "</div>" ++ "<div class=""weathertext"">" ++ text ++ "</div>" ++ "</div>").
  unfold element. rewrite !app_assoc_s. reflexivity.
Qed.
Theorem name_undefined : exists metars stations, (exists e, In e stations /\ about (Some "ZZZZ") e) /\
  forall (pow : flt -> flt -> flt), pow_tame pow ->
  forall (D : Type) clock sgn (distance : option string -> option string -> D) (distance_text : D -> string) year month day imperial,
    exists d item, addStationNames (AWCdataToMap distance metars []) stations = [(Some "ZZZZ", d)]
      /\ displayStations clock pow sgn distance_text year month day imperial [(Some "ZZZZ", d)] = ([item], None)
      /\ contains (element "div" "weatherstation" ("undefined (" ++ distance_text (sd_distKm d) ++ " away)")) item.
Proof.
  exists [[("station_id", "ZZZZ"); ("raw_text", "METAR ZZZZ 010000Z 9999=")]], [[("station_id", "ZZZZ")]].
  split. { eexists. split; [left; reflexivity|]. apply content_last. reflexivity. }
  intros pow PT D clock sgn dist dt year month day imperial.
  destruct (summary_returns pow PT sgn "METAR ZZZZ 010000Z 9999=" "" year month day imperial) as [w W].
  pose (d := mkStationData None None None (dist None None) (Some "METAR ZZZZ 010000Z 9999=") (Some "") : StationData D).
  destruct (station_shown D clock pow sgn dt year month day imperial d _ _ w eq_refl eq_refl W) as (item & I & _).
  exists d, item. split; [reflexivity|]. split.
  - cbn [displayStations d sd_metar sd_taf]. rewrite W. cbn [bind]. cbn [d sd_name sd_distKm] in I. cbn [d sd_name sd_distKm]. rewrite I. reflexivity.
  - exact (undefined_shown _ _ _ _ _ I).
Qed.
Theorem display_stops : exists metars, (exists e report, In e metars /\ about (Some "YYYY") e /\ content "raw_text" e (Some report)) /\
  forall (D : Type) pow clock sgn (distance : option string -> option string -> D) (distance_text : D -> string) year month day imperial,
    displayStations clock pow sgn distance_text year month day imperial (addStationNames (AWCdataToMap distance metars []) []) = ([], Some Throw).
Proof.
  exists [[("station_id", "ZZZZ")]; [("station_id", "YYYY"); ("raw_text", "METAR YYYY 010000Z 9999=")]].
  split. { eexists _, _. split; [right; left; reflexivity|]. split; apply content_last; reflexivity. }
  intros. reflexivity.
Qed.
Theorem stations_example :
  let m := [[("raw_text", "METAR ZZZZ 010000Z 9999="); ("station_id", "ZZZZ"); ("latitude", "1")]; [("station_id", "YYYY"); ("raw_text", "METAR YYYY 010000Z 2000=")]] in
  let t := [[("station_id", "XXXX"); ("latitude", "2"); ("longitude", "3"); ("raw_text", "TAF XXXX 010000Z NIL=")]; [("station_id", "ZZZZ"); ("raw_text", "TAF ZZZZ 010000Z NIL="); ("latitude", "9")]] in
  let s := [[("station_id", "WWWW"); ("site", "W")]; [("site", "Z"); ("station_id", "ZZZZ")]] in
  addStationNames (AWCdataToMap (fun _ _ => tt) m t) s =
  [(Some "ZZZZ", mkStationData (Some "Z") (Some "1") None tt (Some "METAR ZZZZ 010000Z 9999=") (Some "TAF ZZZZ 010000Z NIL="));
   (Some "YYYY", mkStationData (Some "") None None tt (Some "METAR YYYY 010000Z 2000=") (Some ""));
   (Some "XXXX", mkStationData (Some "") (Some "2") (Some "3") tt (Some "") (Some "TAF XXXX 010000Z NIL="))]
  /\ forall e, In e (m ++ t)%list -> exists text, content "raw_text" e (Some text).
Proof.
  cbv zeta. split; [reflexivity|]. intros e I. repeat (destruct I as [<- |I]; [eexists; apply content_last; reflexivity|]). destruct I.
Qed.
