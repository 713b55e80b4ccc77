(** Regular expressions without repetition whose groups may capture in more than one way: the
    matcher takes the first form, in the order of its choices. *)
From Coq Require Import Lia.
From Verif Require Import Prim Lib Regex SpecRegex SpecForm SpecDecimal SpecNumeral.
From Verif Require Import Pf_Regex Pf_Caps Pf_Decimal Pf_Form Pf_Numeral Pf_Shapes Pf_Layout.
Local Open Scope string_scope.

(** As [layouts], in the order in which the matcher tries them *)
Fixpoint choices (r : re) : option (list layout) :=
  match r with
  | REps => Some [([], [])]
  | RCls rs => Some [([rs], [])]
  | RSeq a b => match choices a, choices b with
                | Some x, Some y => Some (flat_map (fun p => map (fun q => (fst p ++ fst q, shift (List.length (fst p)) (snd q) ++ snd p)) y) x)
                | _, _ => None end
  | RAlt a b => match choices a, choices b with Some x, Some y => Some (x ++ y) | _, _ => None end
  | ROpt a => match choices a with Some x => Some (x ++ [([], [])]) | None => None end
  | RStar _ => None
  | RGrp n a => match choices a with
                | Some x => Some (map (fun p => (fst p, (n, (0, List.length (fst p))) :: snd p)) x)
                | None => None end
  end%list.
(** The text begins with the form: the rest *)
Fixpoint starts (f : list cls) (s : string) : option string :=
  match f, s with
  | [], _ => Some s
  | a :: f, String c s => if in_cls c a then starts f s else None
  | _ :: _, EmptyString => None
  end.
Definition way (s : string) (c : caps) (f : layout) : list (string * caps) :=
  match starts (fst f) s with Some t => [(t, (read (snd f) s ++ c)%list)] | None => [] end.
Lemma starts_app : forall f g s, starts (f ++ g) s = match starts f s with Some t => starts g t | None => None end.
Proof. induction f as [|a f IH]; intros g [|c s]; try reflexivity. cbn. destruct (in_cls c a); [apply IH|reflexivity]. Qed.
Lemma starts_split : forall f s t, starts f s = Some t -> exists p, s = p ++ t /\ slen p = List.length f.
Proof.
  induction f as [|a f IH]; intros s t H; cbn in H; [injection H as ->; exists ""; split; reflexivity|].
  destruct s as [|c s]; [discriminate H|]. destruct (in_cls c a); [|discriminate H]. apply IH in H. destruct H as (p & -> & L).
  exists (String c p). split; [reflexivity|]. cbn. f_equal. exact L.
Qed.
Lemma read_shift : forall l p s, read (shift (slen p) l) (p ++ s) = read l s.
Proof.
  intros l p s. unfold read, shift. rewrite map_map. apply map_ext. intros [n [k w]]. cbn [fst snd]. f_equal.
  assert (D : forall p a b s, substring (slen p + a) b (p ++ s) = substring a b s) by (induction p0; intros; [reflexivity|apply IHp0]). apply D.
Qed.
Lemma read_app : forall a b s, read (a ++ b) s = (read a s ++ read b s)%list.
Proof. intros. apply map_app. Qed.
Lemma flat_map_flat_map : forall A B C (f : A -> list B) (g : B -> list C) l, flat_map g (flat_map f l) = flat_map (fun x => flat_map g (f x)) l.
Proof. intros A B C f g l. induction l as [|a l IH]; [reflexivity|]. cbn. rewrite flat_map_app, IH. reflexivity. Qed.
Lemma flat_map_map : forall A B C (f : A -> B) (g : B -> list C) l, flat_map g (map f l) = flat_map (fun x => g (f x)) l.
Proof. intros A B C f g l. induction l as [|a l IH]; [reflexivity|]. cbn. rewrite IH. reflexivity. Qed.
Lemma map_flat_map : forall A B C (f : A -> list B) (g : B -> C) l, map g (flat_map f l) = flat_map (fun x => map g (f x)) l.
Proof. intros A B C f g l. induction l as [|a l IH]; [reflexivity|]. cbn. rewrite map_app, IH. reflexivity. Qed.
Lemma flat_map_nil : forall A B (l : list A), flat_map (fun _ => @nil B) l = [].
Proof. induction l; auto. Qed.
Lemma run_choices : forall r l, choices r = Some l -> forall s c, run r s c = flat_map (way s c) l.
Proof.
  induction r as [|rs|a IHa b IHb|a IHa b IHb|a IHa|a IHa|n a IHa]; intros l E s c; cbn in E; try discriminate E.
  - injection E as <-. reflexivity.
  - injection E as <-. unfold way. destruct s as [|x s]; [reflexivity|]. cbn. destruct (in_cls x rs); reflexivity.
  - destruct (choices a) as [x|]; [|discriminate E]; destruct (choices b) as [y|]; [|discriminate E]; injection E as <-.
    cbn [run]. rewrite (IHa _ eq_refl), !flat_map_flat_map. apply flat_map_ext. intros f. rewrite flat_map_map.
    unfold way at 1. destruct (starts (fst f) s) as [t|] eqn:S.
    + cbn [flat_map fst snd]. rewrite app_nil_r, (IHb _ eq_refl). apply flat_map_ext. intros g. unfold way. cbn [fst snd].
      rewrite starts_app, S. destruct (starts (fst g) t); [|reflexivity]. f_equal. f_equal.
      destruct (starts_split _ _ _ S) as (p & -> & L). rewrite <- L, read_app, read_shift, app_assoc. reflexivity.
    + cbn [flat_map]. symmetry. etransitivity; [|apply (flat_map_nil _ _ y)]. apply flat_map_ext. intros g. unfold way. cbn [fst]. rewrite starts_app, S. reflexivity.
  - destruct (choices a) as [x|]; [|discriminate E]; destruct (choices b) as [y|]; [|discriminate E]; injection E as <-.
    cbn [run]. rewrite (IHa _ eq_refl), (IHb _ eq_refl), flat_map_app. reflexivity.
  - destruct (choices a) as [x|]; [|discriminate E]; injection E as <-.
    cbn [run]. rewrite (IHa _ eq_refl), flat_map_app. reflexivity.
  - destruct (choices a) as [x|]; [|discriminate E]; injection E as <-.
    cbn [run]. rewrite (IHa _ eq_refl), map_flat_map, flat_map_map. apply flat_map_ext. intros [ff sf]. unfold way. cbn [fst snd].
    destruct (starts ff s) as [t|] eqn:S; [|reflexivity]. cbn [map fst snd]. f_equal. f_equal.
    cbn [read map fst snd app]. f_equal. f_equal. destruct (starts_split _ _ _ S) as (p & -> & L). rewrite slen_app, <- L.
    f_equal. lia.
Qed.
Lemma fits_starts : forall f s, fits_shape f s = match starts f s with Some t => sempty t | None => false end.
Proof.
  unfold fits_shape. induction f as [|a f IH]; intros [|c s]; try reflexivity. cbn. destruct (in_cls c a); [apply IH|reflexivity].
Qed.
Lemma regex_first : forall r l s, choices r = Some l ->
  regex_match r s = match find (fun f => fits_shape (fst f) s) l with Some f => Some (read (snd f) s) | None => None end.
Proof.
  intros r l s E. unfold regex_match. rewrite (run_choices _ _ E). clear E.
  induction l as [|f l IH]; [reflexivity|]. cbn [flat_map find]. rewrite fits_starts. unfold way at 1.
  destruct (starts (fst f) s) as [t|]; [|exact IH]. cbn [app find fst snd]. destruct (sempty t); [|exact IH].
  cbn [snd]. rewrite app_nil_r. reflexivity.
Qed.
(** Every text of the form [f] is of the form [g]. *)
Definition within (b a : cls) : bool :=
  forallb (fun y => existsb (fun x => N.leb (code (fst x)) (code (fst y)) && N.leb (code (snd y)) (code (snd x))) a) b.
Fixpoint covers (g f : list cls) : bool :=
  match g, f with
  | [], [] => true
  | a :: g, b :: f => within b a && covers g f
  | _, _ => false
  end.
Lemma within_in : forall b a c, within b a = true -> in_cls c b = true -> in_cls c a = true.
Proof.
  intros b a c W B. unfold in_cls in *. apply existsb_exists in B. destruct B as (y & Iy & Y). unfold within in W. rewrite forallb_forall in W.
  specialize (W _ Iy). apply existsb_exists in W. destruct W as (x & Ix & X). apply existsb_exists. exists x. split; [exact Ix|].
  unfold in_range in *. apply andb_prop in X. apply andb_prop in Y. destruct X as [X1 X2], Y as [Y1 Y2]. apply N.leb_le in X1, X2, Y1, Y2.
  apply andb_true_intro. split; apply N.leb_le; lia.
Qed.
Lemma covers_fits : forall g f s, covers g f = true -> fits_shape f s = true -> fits_shape g s = true.
Proof.
  unfold fits_shape. induction g as [|a g IH]; intros [|b f] [|c s] C F; try discriminate; [reflexivity|].
  cbn in *. apply andb_prop in C. apply andb_prop in F. destruct C as [C1 C2], F as [F1 F2]. rewrite (within_in _ _ _ C1 F1). eapply IH; eassumption.
Qed.
(** The first of the choices for the texts of form [f] has the groups of [f]. *)
Fixpoint chosen (l : list layout) (f : layout) : bool :=
  match l with
  | [] => false
  | g :: l => if spots_eqb (snd g) (snd f) then covers (fst g) (fst f) || chosen l f else apart (fst g) (fst f) && chosen l f
  end.
Lemma chosen_first : forall l f s, chosen l f = true -> fits_shape (fst f) s = true ->
  exists g, find (fun g => fits_shape (fst g) s) l = Some g /\ snd g = snd f.
Proof.
  induction l as [|g l IH]; intros f s C F; [discriminate C|]. cbn [chosen] in C. cbn [find].
  destruct (spots_eqb (snd g) (snd f)) eqn:E.
  - apply spots_eq in E. destruct (fits_shape (fst g) s) eqn:G; [exists g; auto|]. apply Bool.orb_true_elim in C. destruct C as [C|C]; [|eapply IH; eassumption].
    rewrite (covers_fits _ _ _ C F) in G. discriminate G.
  - apply andb_prop in C. destruct C as [A C]. destruct (fits_shape (fst g) s) eqn:G; [destruct (apart_fits _ _ _ A G F)|eapply IH; eassumption].
Qed.
(** For the texts of [r'], [r] captures what [r'] does. *)
Definition preferred (r r' : re) : bool :=
  match choices r, layouts r' with
  | Some l, Some k => forallb (chosen l) k
  | _, _ => false
  end.
Lemma captured_in : forall r r' s m, preferred r r' = true -> Captures r' s m -> regex_match r s = Some m.
Proof.
  intros r r' s m P C. unfold preferred in P. destruct (choices r) as [l|] eqn:E; [|discriminate P]. destruct (layouts r') as [k|] eqn:E'; [|discriminate P].
  destruct (layouts_captures _ _ _ _ E' C) as (f & If & Ff & Cf). rewrite forallb_forall in P. specialize (P _ If).
  destruct (chosen_first _ _ _ P Ff) as (g & G & Eg). rewrite (regex_first _ _ _ E), G, Eg. f_equal.
  specialize (Cf "" ""). rewrite Cf. cbn [slen String.length]. f_equal.
  - unfold shift. rewrite <- (map_id (snd f)) at 1. apply map_ext. intros [n [a b]]. reflexivity.
  - clear. cbn [append]. induction s; [reflexivity|]. cbn. f_equal. exact IHs.
Qed.
Lemma captured_in_as : forall r r' s m m', preferred r r' = true -> Captures r' s m -> m = m' -> regex_match r s = Some m'.
Proof. intros r r' s m m' P C <-. exact (captured_in _ _ _ _ P C). Qed.
(** [cap_match] with the expression [r'] *)
Ltac cap_match_in r' := eapply (captured_in_as _ r'); [vm_compute; reflexivity | try unfold r'; cap | reflexivity].
