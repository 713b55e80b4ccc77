(** The lines of the text of the web page, one by one (C82). *)
From Coq Require Import Lia ZArith NArith List String Bool.
Import ListNotations.
From Verif Require Import Prim Lib Float Format Values Weather Summary Page.
From Verif Require Import SpecDecimal SpecNumeral SpecShown SpecFigures SpecStream SpecDirection SpecExplain SpecSummary SpecPage.
From Verif Require Import Pf_ExNumber Pf_ExShown Pf_ExText Pf_Page.
Local Open Scope string_scope.

(** *** Numbers *)
Lemma int_shown : forall z, signed_whole (js_int z) z.
Proof.
  intros z. unfold js_int, dec_Z. destruct (Z.ltb_spec z 0) as [L|L].
  - exists (dec_N (Z.to_N (- z))), (Z.to_N (- z)). split; [apply whole_dec|right; split; [reflexivity|lia]].
  - exists (dec_N (Z.to_N z)), (Z.to_N z). split; [apply whole_dec|left; split; [reflexivity|lia]].
Qed.

Lemma trim_spec : forall s, exists k, s = trim_zeros s ++ string_of_list_ascii (repeat "0"%char k) /\ (forall c, trim_zeros s <> c ++ "0").
Proof.
  induction s as [|c s (k & E & N)]; [exists 0%nat; split; [reflexivity|intros [|? ?] H; discriminate H]|].
  cbn [trim_zeros]. destruct (trim_zeros s) as [|d t] eqn:T.
  - destruct (Ascii.eqb_spec c "0") as [->|X].
    + exists (S k). cbn in E. split; [cbn [repeat string_of_list_ascii append]; rewrite E at 1; reflexivity|]. intros [|? ?] H; discriminate H.
    + exists k. split; [cbn [append]; rewrite E at 1; reflexivity|]. intros [|a b] H; [injection H as H; destruct (X H)|]. injection H as _ H.
      destruct b; discriminate H.
  - exists k. split; [rewrite E at 1; reflexivity|]. intros [|a b] H; [discriminate H|]. injection H as _ H. exact (N b H).
Qed.
Lemma zeros_length : forall k, String.length (string_of_list_ascii (repeat "0"%char k)) = k.
Proof. induction k as [|k IH]; [reflexivity|]. cbn [repeat string_of_list_ascii String.length]. rewrite IH. reflexivity. Qed.
Lemma zeros_decimal : forall k, decimal (string_of_list_ascii (repeat "0"%char k)) = Some 0%N.
Proof. induction k as [|k IH]; [reflexivity|]. cbn [repeat string_of_list_ascii decimal digit_of]. rewrite IH. reflexivity. Qed.
Lemma quotient_shown : forall k z, divided k (js_quotient k z) z.
Proof.
  intros k z. unfold js_quotient. cbv zeta. set (a := Z.abs z). set (p := (10 ^ Z.of_nat k)%Z).
  assert (P : (0 < p)%Z) by (apply Z.pow_pos_nonneg; lia). assert (A : (0 <= a)%Z) by (unfold a; lia).
  destruct (digits_numeral k (a mod p) (proj1 (Z.mod_pos_bound a p P))) as [L D]. fold p in D. rewrite Z.mod_mod in D by lia.
  destruct (trim_spec (dec_digits k (a mod p))) as (j & E & N). set (T := trim_zeros (dec_digits k (a mod p))) in *. clearbody T.
  rewrite E, Pf_WindWords.decimal_split, zeros_decimal in D. destruct (decimal T) as [t|] eqn:DT; [|discriminate D].
  assert (LT : (slen T + j = k)%nat).
  { rewrite <- L, E. change (slen T + j = slen (T ++ string_of_list_ascii (repeat "0"%char j)))%nat. rewrite slen_app. unfold slen at 3. rewrite zeros_length. reflexivity. }
  unfold slen at 1 in D. rewrite zeros_length in D.
  assert (V : (Z.of_N t * 10 ^ Z.of_nat j)%Z = (a mod p)%Z).
  { pose proof (Z.mod_pos_bound a p P). assert (X : (t * 10 ^ N.of_nat j + 0)%N = Z.to_N (a mod p)) by (injection D as D; exact D).
    apply (f_equal Z.of_N) in X. rewrite N.add_0_r, N2Z.inj_mul, N2Z.inj_pow, nat_N_Z, Z2N.id in X by lia. exact X. }
  exists (dec_N (Z.to_N (a / p)) ++ match T with "" => "" | f => "." ++ f end), (Z.to_N (a / p) * 10 ^ N.of_nat (slen T) + t)%N, (slen T).
  split; [|split; [lia|split; [destruct T; reflexivity|]]].
  - exists (dec_N (Z.to_N (a / p))), T. split; [apply dec_nonempty|]. split; [rewrite Pf_WindWords.decimal_split, decimal_dec, DT; reflexivity|].
    split; [reflexivity|]. split; [exact N|]. destruct T; [apply app_empty_r|reflexivity].
  - assert (Q : (0 <= a / p)%Z) by (apply Z.div_pos; lia). rewrite N2Z.inj_add, N2Z.inj_mul, N2Z.inj_pow, nat_N_Z, Z2N.id by lia. change (Z.of_N 10) with 10%Z.
    replace (k - slen T)%nat with j by lia. rewrite Z.mul_add_distr_r, V, <- Z.mul_assoc, <- Z.pow_add_r by lia.
    replace (Z.of_nat (slen T) + Z.of_nat j)%Z with (Z.of_nat k) by lia. fold p. pose proof (Z.div_mod a p). lia.
Qed.

(** *** No markup in the lines *)
Definition calm (s : string) : bool := negb (occurs "<" s).
Lemma occurs_app : forall c a b, occurs c (a ++ b) = occurs c a || occurs c b.
Proof. intros c a b. induction a as [|d a IH]; [reflexivity|]. cbn [append occurs]. rewrite IH, orb_assoc. reflexivity. Qed.
Lemma calm_app : forall a b, calm a = true -> calm b = true -> calm (a ++ b) = true.
Proof. intros a b A B. unfold calm in *. rewrite occurs_app. destruct (occurs "<" a); [discriminate A|exact B]. Qed.
Lemma safe_calm : forall s, safe_all s = true -> calm s = true.
Proof.
  induction s as [|c s IH]; intros H; [reflexivity|]. cbn [safe_all] in H. apply andb_prop in H. destruct H as [A B]. apply IH in B.
  unfold calm in *. cbn [occurs]. unfold safe in A. apply andb_prop in A. destruct A as [A _]. rewrite Ascii.eqb_sym. destruct (Ascii.eqb c "<"); [discriminate A|exact B].
Qed.
Lemma calm_int : forall z, calm (js_int z) = true.
Proof. intros z. apply safe_calm, safe_Z. Qed.
Lemma calm_trim : forall s, calm s = true -> calm (trim_zeros s) = true.
Proof.
  intros s H. destruct (trim_spec s) as (k & E & _). unfold calm in *. rewrite E, occurs_app in H. destruct (occurs "<" (trim_zeros s)); [discriminate H|reflexivity].
Qed.
Lemma calm_quotient : forall k z, calm (js_quotient k z) = true.
Proof.
  intros k z. unfold js_quotient. cbv zeta. apply calm_app; [destruct (z <? 0)%Z; reflexivity|]. apply calm_app; [apply safe_calm, safe_N|].
  pose proof (calm_trim _ (safe_calm _ (safe_digits k (Z.abs z mod 10 ^ Z.of_nat k)))) as T. destruct (trim_zeros _); [reflexivity|]. apply calm_app; [reflexivity|exact T].
Qed.
Lemma calm_span : forall m, calm (timeDifferenceMinutesToString m) = true.
Proof.
  intros m. unfold timeDifferenceMinutesToString. cbv zeta. destruct (m =? 0)%Z; [reflexivity|].
  repeat (apply calm_app; [|]);
    repeat match goal with |- calm (if ?b then _ else _) = true => destruct b end; try reflexivity; apply calm_app; try apply calm_int; reflexivity.
Qed.
Lemma calm_cardinal : forall d c, directionToCardinalText d = Some c -> calm c = true.
Proof.
  intros d c. unfold directionToCardinalText.
  repeat match goal with |- context [if ?b then _ else _] => destruct b; [solve [intros E; first [discriminate E|injection E as <-; reflexivity]]|] end.
  intros E. injection E as <-. reflexivity.
Qed.
Lemma calm_symbols : forallb (fun s => calm (sym_text s)) all_SumWeather = true.
Proof. vm_compute. reflexivity. Qed.

Lemma forall_if : forall (P : string -> Prop) b s, P s -> Forall P (only_if b s).
Proof. intros P [] s H; cbn [only_if]; auto. Qed.
Lemma forall_opt : forall (P : string -> Prop) o f, (forall v, o = Some v -> P (f v)) -> Forall P (opt o f).
Proof. intros P [v|] f H; cbn [opt]; auto. Qed.
Ltac calm_step :=
  first [ reflexivity | apply calm_int | apply calm_quotient | apply calm_span
        | apply calm_app | match goal with |- calm (match ?o with _ => _ end) = true => destruct o eqn:? end
        | match goal with E : directionToCardinalText _ = Some ?c |- calm ?c = true => exact (calm_cardinal _ _ E) end ].
Ltac calm_all := repeat calm_step.
Lemma lines_calm : forall clock imperial w, Forall (fun l => calm l = true) (lines_of clock imperial w).
Proof.
  intros clock imperial w. unfold lines_of. cbv zeta.
  apply Forall_app; split; [apply Forall_forall; intros l I; apply in_map_iff in I; destruct I as (s & <- & _); exact (proj1 (forallb_forall _ _) calm_symbols s (all_symbols_listed s))|].
  do 4 (apply Forall_app; split; [apply forall_if; reflexivity|]).
  apply Forall_app; split; [constructor; [|constructor]; apply calm_app; [destruct (cw_cloud w); reflexivity|destruct (cw_isStormClouds w); reflexivity]|].
  generalize (adaptCurrentWeather w js_valueNotSpecified). intros p. unfold temperature_line, wind_line, degrees_text, speed_text.
  apply Forall_app; split; [constructor; [|constructor]; calm_all|].
  apply Forall_app; split; [apply forall_opt; intros v _; calm_all|].
  apply Forall_app; split; [apply forall_if; calm_all|].
  do 3 (apply Forall_app; split; [apply forall_opt; intros v _; calm_all|]).
  unfold update_line, dateTimeToStr_HH_MM. destruct (pw_updateYear p), (pw_updateMonth p), (pw_updateDay p), (pw_updateHour p), (pw_updateMinute p); try constructor.
  destruct (clock _ _ _ _ _) as [[lh lm] ago]. constructor; [calm_all|constructor].
Qed.
