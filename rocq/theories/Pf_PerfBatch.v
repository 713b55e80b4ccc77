(** Lines, batches and loops over them, for C89 to C96. *)
From Coq Require Import List String Ascii NArith Bool Arith Lia.
From Verif Require Import Prim Lib Groups1 Parser Performance SpecPerformance.
Import ListNotations.
Local Open Scope string_scope.

(** ** Lines *)

Lemma upto_lines : forall s a b, upto nl s = (a, b) -> s <> "" -> lines s = a :: lines b /\ slen b < slen s.
Proof.
  induction s as [|c s IH]; intros a b E N; [congruence|]. cbn [upto] in E. cbn [lines slen String.length].
  change newline with nl. destruct (Ascii.eqb c nl).
  - injection E as <- <-. split; [reflexivity|]. unfold slen. cbn [String.length]. lia.
  - destruct (upto nl s) as [a0 b0] eqn:U. injection E as <- <-. destruct s as [|c' s'].
    + cbn [upto] in U. injection U as <- <-. split; [reflexivity|]. unfold slen. cbn [String.length]. lia.
    + destruct (IH a0 b0 eq_refl ltac:(discriminate)) as [-> L]. split; [reflexivity|]. unfold slen in *. cbn [String.length] in *. lia.
Qed.
Lemma getline_none : forall s, getline nl s = None -> s = "".
Proof. intros [|c s]; [reflexivity|discriminate]. Qed.
Lemma getline_some : forall s a b, getline nl s = Some (a, b) -> lines s = a :: lines b /\ slen b < slen s.
Proof.
  intros s a b E. destruct s as [|c s]; [discriminate|]. apply upto_lines; [|discriminate]. unfold getline in E. congruence.
Qed.
Lemma lines_nil : forall s, lines s = [] -> s = "".
Proof. intros [|c s] E; [reflexivity|]. cbn [lines] in E. destruct (Ascii.eqb c newline); [discriminate|]. destruct (lines s); discriminate. Qed.

Lemma load_lines : forall n f l f' more, loadLines n f = (l, f', more) ->
  l = firstn n (lines f) /\ lines f' = skipn n (lines f) /\ more = Nat.leb n (List.length (lines f)) /\
  slen f' + (if more then n else 0) <= slen f.
Proof.
  induction n as [|n IH]; intros f l f' more E; cbn [loadLines] in E.
  - injection E as <- <- <-. repeat split. lia.
  - destruct (getline nl f) as [[s r]|] eqn:G.
    + destruct (loadLines n r) as [[l1 f1] m1] eqn:L. injection E as <- <- <-.
      destruct (IH _ _ _ _ L) as (A & B & C & D). destruct (getline_some _ _ _ G) as [-> H].
      cbn [firstn skipn List.length Nat.leb]. rewrite <- A, B, <- C. repeat split. destruct m1; lia.
    + injection E as <- <- <-. rewrite (getline_none _ G). cbn [lines firstn skipn List.length Nat.leb]. repeat split. lia.
Qed.

Lemma text_lines : forall ls, (forall l, In l ls -> one_line l) -> lines (text_of ls) = ls.
Proof.
  assert (H : forall l t, one_line l -> lines (l ++ String newline t) = l :: lines t).
  { induction l as [|c l IH]; intros t O; [reflexivity|]. cbn [append lines]. destruct (Ascii.eqb c newline) eqn:E.
    - apply Ascii.eqb_eq in E. exfalso. apply O. left. exact E.
    - rewrite IH; [reflexivity|]. intros I. apply O. right. exact I. }
  assert (K : forall l ls, text_of (l :: ls) = l ++ String newline (text_of ls)).
  { intros l ls. unfold text_of. cbn [map String.concat]. destruct ls as [|m ls]; cbn [map String.concat].
    - reflexivity.
    - rewrite app_assoc_s. reflexivity. }
  induction ls as [|l ls IH]; intros O; [reflexivity|]. rewrite K, H; [|apply O; left; reflexivity].
  rewrite IH; [reflexivity|]. intros x I. apply O. right. exact I.
Qed.
Lemma text_cons : forall l ls, text_of (l :: ls) = l ++ String newline (text_of ls).
Proof.
  intros l ls. unfold text_of. cbn [map String.concat]. destruct ls as [|m ls]; cbn [map String.concat].
  - reflexivity.
  - rewrite app_assoc_s. reflexivity.
Qed.
Lemma text_app : forall a b, text_of (a ++ b) = text_of a ++ text_of b.
Proof.
  induction a as [|l a IH]; intros b; [reflexivity|]. cbn [app]. rewrite 2 text_cons, IH. rewrite app_assoc_s. reflexivity.
Qed.
Lemma lines_one_line : forall s l, In l (lines s) -> one_line l.
Proof.
  induction s as [|c s IH]; intros l I; [destruct I|]. cbn [lines] in I. destruct (Ascii.eqb c newline) eqn:E.
  - destruct I as [<- |I]; [intros []|exact (IH l I)].
  - assert (N : c <> newline) by (intros ->; rewrite Ascii.eqb_refl in E; discriminate).
    destruct (lines s) as [|m ms].
    + destruct I as [<- |[]]. intros [H|[]]. exact (N H).
    + destruct I as [<- |I]; [|apply IH; right; exact I]. intros [H|H]; [exact (N H)|]. exact (IH m (or_introl eq_refl) H).
Qed.

Lemma firstn_plus : forall {A} n k (l : list A), firstn (n + k) l = (firstn n l ++ firstn k (skipn n l))%list.
Proof.
  intros A. induction n as [|n IH]; intros k l; [reflexivity|]. destruct l as [|x l].
  - cbn [Nat.add firstn skipn app]. rewrite firstn_nil. reflexivity.
  - cbn [Nat.add firstn skipn app]. rewrite IH. reflexivity.
Qed.

(** ** Loops over batches *)

Fixpoint foldM {A B : Type} (f : B -> A -> res A) (l : list B) (a : A) : res A :=
  match l with [] => Ok a | b :: r => let! a' := f b a in foldM f r a' end.

Inductive Batches (n : nat) : list string -> list string -> list (list string) -> Prop :=
| Last_batch : forall cur rest, List.length rest < n -> Batches n cur rest [cur]
| More_batches : forall cur rest bs, n <= List.length rest -> Batches n (firstn n rest) (skipn n rest) bs -> Batches n cur rest (cur :: bs).

Lemma batches_concat : forall n cur rest bs, 0 < n -> Batches n cur rest bs ->
  concat bs = (cur ++ firstn (List.length rest / n * n) rest)%list.
Proof.
  intros n cur rest bs P B. induction B as [cur rest L|cur rest bs L B IH].
  - rewrite Nat.div_small by exact L. cbn [concat Nat.mul firstn]. rewrite app_nil_r. reflexivity.
  - cbn [concat]. rewrite IH. f_equal. rewrite skipn_length.
    replace (List.length rest / n) with (S ((List.length rest - n) / n)).
    + cbn [Nat.mul]. rewrite firstn_plus. reflexivity.
    + replace (List.length rest) with (1 * n + (List.length rest - n)) at 2 by lia. rewrite Nat.div_add_l by lia. reflexivity.
Qed.

Lemma batches_length : forall n cur rest bs, 0 < n -> Batches n cur rest bs -> List.length bs = S (List.length rest / n).
Proof.
  intros n cur rest bs P B. induction B as [cur rest L|cur rest bs L B IH].
  - rewrite Nat.div_small by exact L. reflexivity.
  - cbn [List.length]. rewrite IH, skipn_length. f_equal.
    replace (List.length rest) with (1 * n + (List.length rest - n)) at 2 by lia. rewrite Nat.div_add_l by lia. reflexivity.
Qed.

Lemma file_loop : forall n fuel cur f c, 0 < n -> slen f < fuel ->
  exists bs, Batches n cur (lines f) bs /\
    forall A (body : list string -> A -> res A) a, do_batches fuel body (BatchFromFile cur f n c) a = foldM body bs a.
Proof.
  intros n. induction fuel as [|fuel IH]; intros cur f c P L; [lia|].
  destruct (loadLines n f) as [[l f'] more] eqn:E. destruct (load_lines _ _ _ _ _ E) as (X & Y & Z & W).
  destruct more.
  - symmetry in Z. apply Nat.leb_le in Z.
    destruct (IH l f' c P ltac:(lia)) as (bs & B & H). exists (cur :: bs). split.
    + apply More_batches; [exact Z|]. rewrite <- X, <- Y. exact B.
    + intros A body a. cbn [do_batches getCurrentBatch foldM]. destruct (body cur a) as [a'|e]; [|reflexivity].
      cbn [bind nextBatch]. rewrite E. apply H.
  - symmetry in Z. apply Nat.leb_gt in Z. exists [cur]. split; [apply Last_batch; exact Z|].
    intros A body a. cbn [do_batches getCurrentBatch foldM]. destruct (body cur a) as [a'|e]; [|reflexivity].
    cbn [bind nextBatch]. rewrite E. reflexivity.
Qed.
Lemma real_loop : forall l total k fuel A (body : list string -> A -> res A) a, k < fuel ->
  do_batches fuel body (BatchFromTestdataReal l k total) a = foldM body (repeat l (Nat.max 1 k)) a.
Proof.
  intros l total. induction k as [|k IH]; intros fuel A body a L; (destruct fuel as [|fuel]; [lia|]).
  - cbn [do_batches getCurrentBatch nextBatch Nat.max repeat foldM]. destruct (body l a); reflexivity.
  - cbn [do_batches getCurrentBatch nextBatch]. destruct k as [|k].
    + cbn [Nat.max repeat foldM]. destruct (body l a); reflexivity.
    + change (repeat l (Nat.max 1 (S (S k)))) with (l :: repeat l (Nat.max 1 (S k))). cbn [foldM].
      destruct (body l a) as [a'|e]; [|reflexivity]. cbn [bind]. apply IH. lia.
Qed.

(** The strings which a source gives *)
Definition source (src : BatchProcess) (l : list string) (bs : list (list string)) : Prop :=
  concat bs = l /\ bs <> [] /\
  forall A (body : list string -> A -> res A) a, for_batches body src a = foldM body bs a.

Lemma concat_repeat : forall (l : list string) n, concat (repeat l n) = times n l.
Proof. intros l. induction n as [|n IH]; [reflexivity|]. cbn [repeat concat times]. rewrite IH. reflexivity. Qed.

Lemma source_memory : forall l, source (BatchFromMemory l) l [l].
Proof.
  intros l. split; [cbn [concat]; apply app_nil_r|]. split; [discriminate|]. intros A body a.
  unfold for_batches. cbn [batch_fuel do_batches getCurrentBatch nextBatch foldM]. destruct (body l a); reflexivity.
Qed.
Lemma source_real : forall l k total, source (BatchFromTestdataReal l (S k) total) (times (S k) l) (repeat l (S k)).
Proof.
  intros l k total. split; [apply concat_repeat|]. split; [discriminate|]. intros A body a. unfold for_batches. cbn [batch_fuel].
  rewrite real_loop by lia. reflexivity.
Qed.
Lemma source_file : forall n content, 0 < n -> exists bs, source (openBatch content n) (read_lines n (lines content)) bs /\
  List.length bs = Nat.max 1 (List.length (lines content) / n).
Proof.
  intros n content P. unfold openBatch. cbn [nextBatch]. destruct (loadLines n content) as [[l f] more] eqn:E. cbn [fst].
  destruct (load_lines _ _ _ _ _ E) as (X & Y & Z & W).
  destruct (file_loop n (S (S (slen f))) l f content P ltac:(lia)) as (bs & B & H). exists bs. split; [split; [|split]|].
  - rewrite (batches_concat _ _ _ _ P B), X, Y, skipn_length. unfold read_lines. set (ls := lines content) in *.
    destruct (Nat.ltb (List.length ls) n) eqn:L.
    + apply Nat.ltb_lt in L. rewrite firstn_all2 by lia. rewrite skipn_all2 by lia. rewrite firstn_nil, app_nil_r. reflexivity.
    + apply Nat.ltb_ge in L. replace (List.length ls / n) with (S ((List.length ls - n) / n)).
      * cbn [Nat.mul]. rewrite firstn_plus. reflexivity.
      * replace (List.length ls) with (1 * n + (List.length ls - n)) at 2 by lia. rewrite Nat.div_add_l by lia. reflexivity.
  - destruct B; discriminate.
  - intros A body a. unfold for_batches. cbn [batch_fuel]. apply H.
  - rewrite (batches_length _ _ _ _ P B), Y, skipn_length. set (ls := lines content) in *. destruct (Nat.ltb (List.length ls) n) eqn:L.
    + apply Nat.ltb_lt in L. rewrite (Nat.div_small (List.length ls)) by exact L. rewrite Nat.div_small by lia. reflexivity.
    + apply Nat.ltb_ge in L. replace (List.length ls) with (1 * n + (List.length ls - n)) at 2 by lia. rewrite Nat.div_add_l by lia. reflexivity.
Qed.
