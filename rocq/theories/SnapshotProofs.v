From Coq Require Import ZArith Bool String Ascii List Lia.
From Verif Require Import Base SpecSnapshot ModelObservation ModelSnapshot.
Import ListNotations.
Open Scope string_scope.
Open Scope list_scope.

(** ** Paths *)

Lemma split_not_nil : forall sep s, split sep s <> [].
Proof. intros sep s. destruct s; cbn; [discriminate|]. destruct (Ascii.eqb _ _); [discriminate|]. destruct (split sep s); discriminate. Qed.

Lemma split_free : forall sep s, Forall (free_of sep) (split sep s).
Proof.
  intros sep s. induction s as [|c s IH]; cbn; [constructor; [exact I|constructor]|].
  destruct (Ascii.eqb_spec c sep).
  - constructor; [exact I|exact IH].
  - destruct (split sep s) as [|seg segs] eqn:E; [exfalso; eapply split_not_nil; exact E|].
    inversion IH; subst. constructor; [split; assumption|assumption].
Qed.

Lemma split_joined : forall sep s, joined sep (split sep s) = s.
Proof.
  intros sep s. induction s as [|c s IH]; [reflexivity|]. cbn [split].
  destruct (Ascii.eqb_spec c sep) as [->|Hne].
  - pose proof (split_not_nil sep s) as Hn. unfold joined in *. destruct (split sep s) as [|seg segs]; [congruence|].
    change (String.concat (String sep "") ("" :: seg :: segs)) with (String sep (String.concat (String sep "") (seg :: segs))).
    rewrite IH. reflexivity.
  - pose proof (split_not_nil sep s) as Hn. unfold joined in *. destruct (split sep s) as [|seg segs]; [congruence|].
    rewrite <- IH. destruct segs; reflexivity.
Qed.

Lemma split_free_one : forall sep s, free_of sep s -> split sep s = [s].
Proof.
  intros sep s. induction s as [|c s IH]; intros H; [reflexivity|]. cbn in H. destruct H as [H1 H2]. cbn [split].
  destruct (Ascii.eqb_spec c sep) as [E|_]; [congruence|]. rewrite (IH H2). reflexivity.
Qed.

Lemma split_app : forall sep a b, free_of sep a -> split sep (a ++ String sep b)%string = a :: split sep b.
Proof.
  intros sep a b. induction a as [|c a IH]; intros H; cbn [append split].
  - rewrite Ascii.eqb_refl. reflexivity.
  - cbn in H. destruct H as [H1 H2]. destruct (Ascii.eqb_spec c sep) as [E|_]; [congruence|]. rewrite (IH H2). reflexivity.
Qed.

Lemma split_of_joined : forall sep segs, segs <> [] -> Forall (free_of sep) segs -> split sep (joined sep segs) = segs.
Proof.
  intros sep segs. induction segs as [|s segs IH]; intros Hn Hf; [congruence|]. inversion Hf; subst.
  destruct segs as [|s2 segs].
  - apply split_free_one. assumption.
  - change (joined sep (s :: s2 :: segs)) with (s ++ String sep (joined sep (s2 :: segs)))%string.
    rewrite split_app by assumption. rewrite IH by (assumption || discriminate). reflexivity.
Qed.

Lemma empty_eqb : forall s, string_is_empty s = (s =? "").
Proof. destruct s; reflexivity. Qed.

Lemma words_filter : forall segs, filter (fun x => negb (string_is_empty x)) segs = words_of segs.
Proof. induction segs as [|s segs IH]; [reflexivity|]. cbn. rewrite IH, empty_eqb. reflexivity. Qed.

Lemma has_words_split : forall sep path words, has_words sep path words <-> words = words_of (split sep path).
Proof.
  intros sep path words. split.
  - intros (segs & Hn & Hf & -> & ->). rewrite split_of_joined by assumption. reflexivity.
  - intros ->. exists (split sep path). split; [apply split_not_nil|]. split; [apply split_free|].
    split; [symmetry; apply split_joined|reflexivity].
Qed.

Lemma has_words_total : forall sep path, exists words, has_words sep path words.
Proof. intros. eexists. apply has_words_split. reflexivity. Qed.

Lemma has_words_unique : forall sep path a b, has_words sep path a -> has_words sep path b -> a = b.
Proof. intros sep path a b Ha Hb. apply has_words_split in Ha, Hb. congruence. Qed.

(** ** Following *)

Lemma lookup_first : forall n s, match lookup n s with Some i => first_named n s i | None => ~ In n (map fst s) end.
Proof.
  intros n s. induction s as [|[m v] s IH]; cbn; [tauto|]. destruct (String.eqb_spec m n) as [->|Hne].
  - exists [], s. split; [reflexivity|]. intros [].
  - destruct (lookup n s) as [i|].
    + destruct IH as (b & a & -> & Hb). exists ((m, v) :: b), a. split; [reflexivity|]. cbn. tauto.
    + cbn. tauto.
Qed.

Lemma first_named_lookup : forall n s i, first_named n s i -> lookup n s = Some i.
Proof.
  intros n s i (b & a & -> & Hb). induction b as [|[m v] b IH]; cbn.
  - rewrite String.eqb_refl. reflexivity.
  - cbn in Hb. destruct (String.eqb_spec m n); [tauto|]. apply IH. tauto.
Qed.

Lemma not_named_lookup : forall n s, ~ In n (map fst s) -> lookup n s = None.
Proof.
  intros n s H. pose proof (lookup_first n s) as L. destruct (lookup n s) as [i|]; [|reflexivity].
  exfalso. apply H. destruct L as (b & a & -> & _). rewrite map_app. apply in_or_app. right. left. reflexivity.
Qed.

Definition as_find (o : option item_kind) : find_result := match o with Some i => Found i | None => NotFound end.

Lemma find_item_leads : forall path i, exists r, leads i (words_of path) r /\ find_item i path = as_find r.
Proof.
  induction path as [|n path IH]; intros i; [exists (Some i); split; [constructor|reflexivity]|].
  cbn [find_item words_of filter]. rewrite empty_eqb. destruct (n =? "") eqn:En; cbn [negb]; [apply IH|].
  change (filter (fun s => negb (s =? "")) path) with (words_of path).
  destruct i as [t|b|f|v|v|items]; try (eexists; split; [apply leads_value; exact (fun H => H)|reflexivity]).
  pose proof (lookup_first n items) as L. destruct (lookup n items) as [i'|].
  - destruct (IH i') as (r & Hr & Er). exists r. split; [eapply leads_on; eassumption|exact Er].
  - exists None. split; [apply leads_nowhere; exact L|reflexivity].
Qed.

Lemma leads_unique : forall i words a b, leads i words a -> leads i words b -> a = b.
Proof.
  intros i words a b Ha. revert b. induction Ha as [i|i n words Hg|s n i words r Hf Hl IH|s n words Hn]; intros b Hb.
  - inversion Hb; reflexivity.
  - inversion Hb; subst; [reflexivity| |]; exfalso; apply Hg; exact I.
  - inversion Hb as [|? ? ? Hg|? ? i' ? ? Hf' Hl'|? ? ? Hn']; subst.
    + exfalso; apply Hg; exact I.
    + apply first_named_lookup in Hf, Hf'. apply IH. congruence.
    + apply first_named_lookup in Hf. rewrite (not_named_lookup _ _ Hn') in Hf. discriminate Hf.
  - inversion Hb as [|? ? ? Hg|? ? i' ? ? Hf' Hl'|? ? ? Hn']; subst; [exfalso; apply Hg; exact I| |reflexivity].
    apply first_named_lookup in Hf'. rewrite (not_named_lookup _ _ Hn) in Hf'. discriminate Hf'.
Qed.

Lemma words_of_idem : forall l, words_of (words_of l) = words_of l.
Proof. unfold words_of. induction l as [|s l IH]; [reflexivity|]. cbn. destruct (negb (s =? "")) eqn:E; cbn; rewrite ?E, IH; reflexivity. Qed.

Lemma find_as_item : forall s sep words path, words = words_of (split sep path) -> words <> [] ->
  find_with_separator s path sep = find_item (ItemSnapshot s) words.
Proof.
  intros s sep words path Hw Hn. unfold find_with_separator. rewrite words_filter, <- Hw.
  destruct words as [|n words]; [congruence|]. cbn [find_item].
  assert (Hne : string_is_empty n = false).
  { rewrite empty_eqb. assert (Hin : In n (words_of (split sep path))) by (rewrite <- Hw; left; reflexivity).
    apply filter_In in Hin. destruct Hin as [_ Hin]. destruct (n =? ""); [discriminate Hin|reflexivity]. }
  rewrite Hne. reflexivity.
Qed.

Lemma find_follows : forall s sep path words r,
  has_words sep path words -> words <> [] -> leads (ItemSnapshot s) words r ->
  find_with_separator s path sep = as_find r.
Proof.
  intros s sep path words r Hw Hn Hl. apply has_words_split in Hw. rewrite (find_as_item _ _ _ _ Hw Hn).
  destruct (find_item_leads words (ItemSnapshot s)) as (r' & Hr & ->).
  assert (E : words_of words = words) by (rewrite Hw; apply words_of_idem). rewrite E in Hr.
  rewrite (leads_unique _ _ _ _ Hl Hr). reflexivity.
Qed.

Lemma find_no_words : forall s sep path, has_words sep path [] -> find_with_separator s path sep = NotFound.
Proof.
  intros s sep path Hw. apply has_words_split in Hw. unfold find_with_separator. rewrite words_filter, <- Hw. reflexivity.
Qed.

Lemma leads_total : forall i words, ~ In "" words -> exists r, leads i words r.
Proof.
  intros i words Hn. destruct (find_item_leads words i) as (r & Hr & _). exists r.
  replace (words_of words) with words in Hr; [exact Hr|].
  clear - Hn. unfold words_of. induction words as [|w words IH]; [reflexivity|]. cbn in Hn. cbn.
  destruct (String.eqb_spec w ""); [exfalso; apply Hn; left; assumption|]. cbn. rewrite <- IH; [reflexivity|tauto].
Qed.

Lemma words_not_empty : forall sep path words, has_words sep path words -> ~ In "" words.
Proof.
  intros sep path words (segs & _ & _ & _ & ->) Hin. apply filter_In in Hin. destruct Hin as [_ Hin]. discriminate Hin.
Qed.

Lemma find_found_iff : forall s sep path words i, has_words sep path words ->
  (find_with_separator s path sep = Found i <-> words <> [] /\ leads (ItemSnapshot s) words (Some i)).
Proof.
  intros s sep path words i Hw. destruct words as [|w words].
  - rewrite (find_no_words _ _ _ Hw). split; [discriminate|tauto].
  - destruct (leads_total (ItemSnapshot s) (w :: words) (words_not_empty _ _ _ Hw)) as (r & Hr).
    assert (Hne : w :: words <> []) by discriminate.
    rewrite (find_follows _ _ _ _ _ Hw Hne Hr). split.
    + destruct r; [|discriminate]. intros E. injection E as ->. auto.
    + intros [_ Hl]. rewrite (leads_unique _ _ _ _ Hr Hl). reflexivity.
Qed.

Lemma find_same_words : forall s sep p q words, has_words sep p words -> has_words sep q words ->
  find_with_separator s p sep = find_with_separator s q sep.
Proof.
  intros s sep p q words Hp Hq. apply has_words_split in Hp, Hq. unfold find_with_separator.
  rewrite !words_filter, <- Hp, <- Hq. reflexivity.
Qed.

Lemma find_item_follows : forall i path r, leads i (words_of path) r -> find_item i path = as_find r.
Proof.
  intros i path r Hl. destruct (find_item_leads path i) as (r' & Hr & ->). rewrite (leads_unique _ _ _ _ Hl Hr). reflexivity.
Qed.

(** ** Step by step *)

Lemma words_of_app : forall a b, words_of (a ++ b) = words_of a ++ words_of b.
Proof. intros. apply filter_app. Qed.

Lemma split_join_app : forall sep p q, split sep (p ++ String sep q)%string = split sep p ++ split sep q.
Proof.
  intros sep p q. induction p as [|c p IH]; cbn [append split].
  - rewrite Ascii.eqb_refl. reflexivity.
  - destruct (Ascii.eqb c sep); [rewrite IH; reflexivity|].
    rewrite IH. pose proof (split_not_nil sep p). destruct (split sep p); [congruence|]. reflexivity.
Qed.

Lemma leads_app : forall i a s, leads i a (Some (ItemSnapshot s)) -> forall b r, leads (ItemSnapshot s) b r -> leads i (a ++ b) r.
Proof.
  intros i a s Ha b r Hb. remember (Some (ItemSnapshot s)) as o eqn:Eo.
  induction Ha as [i|i n words Hg|s' n i words r' Hf Hl IH|s' n words Hn]; cbn.
  - injection Eo as ->. exact Hb.
  - injection Eo as ->. exfalso. apply Hg. exact I.
  - eapply leads_on; [exact Hf|]. apply IH. exact Eo.
  - discriminate Eo.
Qed.

Lemma find_stepwise : forall s sep p q s' words,
  find_with_separator s p sep = Found (ItemSnapshot s') -> has_words sep q words -> words <> [] ->
  found_find_with_separator (find_with_separator s p sep) q sep = find_with_separator s (p ++ String sep q)%string sep.
Proof.
  intros s sep p q s' words Hp Hq Hne. rewrite Hp. cbn [found_find_with_separator].
  destruct (has_words_total sep p) as (pw & Hpw). pose proof Hp as Hp'. apply (find_found_iff _ _ _ _ _ Hpw) in Hp'.
  destruct Hp' as [Hpn Hpl].
  destruct (leads_total (ItemSnapshot s') words (words_not_empty _ _ _ Hq)) as (r & Hr).
  rewrite (find_follows _ _ _ _ _ Hq Hne Hr). symmetry. apply find_follows with (words := (pw ++ words)).
  - apply has_words_split. rewrite split_join_app, words_of_app. apply has_words_split in Hpw, Hq. congruence.
  - destruct pw; [congruence|discriminate].
  - eapply leads_app; eassumption.
Qed.

(** A value swallows the rest of the path; asked again, it has nothing inside. *)
Lemma find_stepwise_value : forall s sep p q i words,
  find_with_separator s p sep = Found i -> ~ is_group i -> has_words sep q words -> words <> [] ->
  found_find_with_separator (find_with_separator s p sep) q sep = NotFound
  /\ find_with_separator s (p ++ String sep q)%string sep = Found i.
Proof.
  intros s sep p q i words Hp Hg Hq Hne. rewrite Hp. split; [destruct i; try reflexivity; exfalso; apply Hg; exact I|].
  destruct (has_words_total sep p) as (pw & Hpw). apply (find_found_iff _ _ _ _ _ Hpw) in Hp. destruct Hp as [Hpn Hpl].
  apply (find_found_iff _ _ _ (pw ++ words)).
  - apply has_words_split. rewrite split_join_app, words_of_app. apply has_words_split in Hpw, Hq. congruence.
  - split; [destruct pw; [congruence|discriminate]|].
    clear - Hpl Hg Hne. remember (Some i) as o eqn:Eo.
    induction Hpl as [j|j n ws Hg'|s' n j ws r' Hf Hl IH|s' n ws Hn]; cbn.
    + injection Eo as ->. destruct words; [congruence|]. apply leads_value. exact Hg.
    + injection Eo as ->. apply leads_value. exact Hg.
    + eapply leads_on; [exact Hf|]. apply IH. exact Eo.
    + discriminate Eo.
Qed.

(** ** JSON *)

Lemma json_set_keys : forall fields k v n,
  In n (map fst (json_set fields k v)) <-> In n (map fst fields) \/ n = k.
Proof.
  induction fields as [|[m w] fields IH]; intros k v n; cbn.
  - intuition congruence.
  - destruct (String.eqb_spec m k) as [->|Hne]; cbn; [intuition congruence|]. rewrite IH. intuition congruence.
Qed.

Lemma json_set_nodup : forall fields k v, NoDup (map fst fields) -> NoDup (map fst (json_set fields k v)).
Proof.
  induction fields as [|[m w] fields IH]; intros k v H; cbn.
  - constructor; [intros []|constructor].
  - inversion H; subst. destruct (String.eqb_spec m k) as [->|Hne]; cbn.
    + constructor; assumption.
    + constructor; [|apply IH; assumption]. rewrite json_set_keys. intros [Hin|E]; [tauto|congruence].
Qed.

Lemma json_set_in : forall fields k v n j, NoDup (map fst fields) ->
  (In (n, j) (json_set fields k v) <-> (n = k /\ j = v) \/ (n <> k /\ In (n, j) fields)).
Proof.
  induction fields as [|[m w] fields IH]; intros k v n j H; cbn.
  - split.
    + intros [E|[]]. injection E as <- <-. auto.
    + intros [[-> ->]|[_ []]]. auto.
  - inversion H as [|? ? Hm Hd]; subst. destruct (String.eqb_spec m k) as [->|Hne]; cbn.
    + split.
      * intros [E|Hin]; [injection E as <- <-; auto|]. right. split; [|auto]. intros ->. apply Hm.
        apply (in_map fst) in Hin. exact Hin.
      * intros [[-> ->]|[Hn [E|Hin]]]; [auto| |auto]. injection E as <- _. congruence.
    + rewrite (IH k v n j Hd). split.
      * intros [E|[[-> ->]|[Hn Hin]]]; auto. injection E as <- <-. right. auto.
      * intros [[-> ->]|[Hn [E|Hin]]]; auto.
Qed.

Definition item_fields (ints : bool) : list (string * item_kind) -> list (string * json) -> list (string * json) :=
  fix go (l : list (string * item_kind)) (data : list (string * json)) :=
    match l with
    | [] => data
    | (k, v) :: rest => go rest (json_set data k (item_to_json ints v))
    end.

Lemma item_to_json_group : forall ints items, item_to_json ints (ItemSnapshot items) = JObject (item_fields ints items []).
Proof. reflexivity. Qed.

Lemma fields_app : forall ints l1 l2 data, item_fields ints (l1 ++ l2) data = item_fields ints l2 (item_fields ints l1 data).
Proof. intros ints. induction l1 as [|[k v] l1 IH]; intros l2 data; cbn; [reflexivity|]. apply IH. Qed.

Lemma fields_nodup : forall ints l data, NoDup (map fst data) -> NoDup (map fst (item_fields ints l data)).
Proof. intros ints. induction l as [|[k v] l IH]; intros data H; cbn; [exact H|]. apply IH, json_set_nodup, H. Qed.

Lemma fields_keys : forall ints l data n, In n (map fst (item_fields ints l data)) <-> In n (map fst data) \/ In n (map fst l).
Proof.
  intros ints. induction l as [|[k v] l IH]; intros data n; cbn; [tauto|]. rewrite IH, json_set_keys. intuition congruence.
Qed.

Lemma fields_untouched : forall ints l data n j, NoDup (map fst data) -> ~ In n (map fst l) ->
  (In (n, j) (item_fields ints l data) <-> In (n, j) data).
Proof.
  intros ints. induction l as [|[k v] l IH]; intros data n j Hd Hn; cbn; [tauto|]. cbn in Hn.
  rewrite IH by (try apply json_set_nodup; tauto). rewrite json_set_in by assumption. intuition congruence.
Qed.

Lemma fields_last : forall ints l n i j, last_named n l i ->
  (In (n, j) (item_fields ints l []) <-> j = item_to_json ints i).
Proof.
  intros ints l n i j (b & a & -> & Ha). rewrite fields_app. cbn [item_fields].
  assert (Hd : NoDup (map fst (item_fields ints b []))) by (apply fields_nodup; constructor).
  rewrite fields_untouched by (try apply json_set_nodup; assumption). rewrite json_set_in by assumption. intuition congruence.
Qed.

Section ItemInd.
  Context (P : item_kind -> Prop) (PText : forall s, P (Text s)) (PBool : forall b, P (Boolean b))
    (PFloat : forall f, P (Float f)) (PUInt : forall v, P (UInt v)) (PInt : forall v, P (Int v))
    (PGroup : forall s, (forall n i, In (n, i) s -> P i) -> P (ItemSnapshot s)).

  Fixpoint item_ind' (i : item_kind) : P i.
  Proof.
    refine (match i with
      | Text s => PText s | Boolean b => PBool b | Float f => PFloat f | UInt v => PUInt v | Int v => PInt v
      | ItemSnapshot s => PGroup s _
      end).
    refine ((fix go (l : list (string * item_kind)) : forall n i, In (n, i) l -> P i :=
      match l with
      | [] => fun n i H => match H with end
      | (m, j) :: rest => fun n i H => _
      end) s).
    destruct H as [E|H]; [|exact (go rest n i H)].
    exact (eq_rect j P (item_ind' j) i (f_equal snd E)).
  Defined.
End ItemInd.

Lemma to_json_of : forall ints i, json_of ints i (item_to_json ints i).
Proof.
  intros ints. apply item_ind'; intros.
  - apply json_text.
  - cbn. destruct ints; [destruct b; [apply json_true|apply json_false]; reflexivity|apply json_bool; reflexivity].
  - apply json_float.
  - apply json_uint.
  - apply json_int.
  - rewrite item_to_json_group. apply json_group.
    + apply fields_nodup. constructor.
    + intros n. rewrite fields_keys. cbn. tauto.
    + intros n i j Hl Hin. apply (fields_last ints s n i j Hl) in Hin. subst j.
      destruct Hl as (b & a & -> & _). eapply H. apply in_or_app. right. left. reflexivity.
Qed.

Lemma snapshot_json_of : forall ints s, json_of ints (ItemSnapshot s) (snapshot_to_json ints s).
Proof. intros. apply to_json_of. Qed.

(** ** JSON and find *)

Lemma find_field : forall fields n j, NoDup (map fst fields) -> In (n, j) fields ->
  List.find (fun f : string * json => fst f =? n) fields = Some (n, j).
Proof.
  induction fields as [|[m w] fields IH]; intros n j Hd Hin; [destruct Hin|]. cbn. inversion Hd; subst.
  destruct Hin as [E|Hin].
  - injection E as -> ->. rewrite String.eqb_refl. reflexivity.
  - destruct (String.eqb_spec m n) as [->|Hne]; [|apply IH; assumption].
    exfalso. apply H1. apply (in_map fst) in Hin. exact Hin.
Qed.

Lemma json_at_only : forall ints i words r, only_at i words r ->
  json_at (item_to_json ints i) words = Some (item_to_json ints r).
Proof.
  intros ints i words r H. induction H as [i|b n i a words r Hb Ha H IH]; [reflexivity|].
  rewrite item_to_json_group. cbn [json_at].
  assert (Hl : last_named n (b ++ (n, i) :: a) i) by (exists b, a; auto).
  rewrite (find_field _ n (item_to_json ints i)).
  - exact IH.
  - apply fields_nodup. constructor.
  - apply (fields_last ints _ n i _ Hl). reflexivity.
Qed.

Lemma only_leads : forall i words r, only_at i words r -> leads i words (Some r).
Proof.
  intros i words r H. induction H as [i|b n i a words r Hb Ha H IH]; [constructor|].
  eapply leads_on; [|exact IH]. exists b, a. auto.
Qed.

Lemma json_agrees : forall ints s sep path words i,
  has_words sep path words -> words <> [] -> only_at (ItemSnapshot s) words i ->
  find_with_separator s path sep = Found i
  /\ json_at (snapshot_to_json ints s) words = Some (item_to_json ints i).
Proof.
  intros ints s sep path words i Hw Hn Ho. split.
  - apply (find_found_iff _ _ _ _ _ Hw). split; [exact Hn|]. apply only_leads, Ho.
  - apply json_at_only. exact Ho.
Qed.

(** ** Durations *)

Lemma to_duration_number : forall unit r v,
  (r = Found (UInt v) \/ (r = Found (Int v) /\ in_i64 v)) -> (0 <= v)%Z ->
  to_duration unit r = DDuration (v * unit).
Proof.
  intros unit r v H Hv. destruct H as [->|[-> Hi]]; [reflexivity|]. cbn. unfold wrap_u64.
  rewrite Z.mod_small; [reflexivity|]. unfold in_i64 in Hi. lia.
Qed.

Lemma to_duration_other : forall unit r,
  (r = NotFound -> to_duration unit r = DNotFound)
  /\ (forall i, r = Found i -> (forall v, i <> UInt v) -> (forall v, i <> Int v) -> to_duration unit r = NotADuration).
Proof.
  intros unit r. split; [intros ->; reflexivity|]. intros i -> H1 H2.
  destruct i; try reflexivity; exfalso; [eapply H1|eapply H2]; reflexivity.
Qed.

Lemma to_duration_units : forall r v,
  (r = Found (UInt v) \/ (r = Found (Int v) /\ in_i64 v)) -> (0 <= v)%Z ->
  to_duration_nanoseconds r = DDuration v
  /\ to_duration_microseconds r = DDuration (v * 1000)
  /\ to_duration_milliseconds r = DDuration (v * 1000 * 1000)
  /\ to_duration_seconds r = DDuration (v * 1000 * 1000 * 1000).
Proof.
  intros r v H Hv. unfold to_duration_nanoseconds, to_duration_microseconds, to_duration_milliseconds, to_duration_seconds.
  rewrite !(to_duration_number _ _ _ H Hv). repeat split; f_equal; lia.
Qed.

Lemma to_duration_not : forall r f,
  In f [to_duration_nanoseconds; to_duration_microseconds; to_duration_milliseconds; to_duration_seconds] ->
  (r = NotFound -> f r = DNotFound)
  /\ (forall i, r = Found i -> (forall v, i <> UInt v) -> (forall v, i <> Int v) -> f r = NotADuration).
Proof.
  intros r f H. cbn in H. destruct H as [<-|[<-|[<-|[<-|[]]]]]; apply to_duration_other.
Qed.
