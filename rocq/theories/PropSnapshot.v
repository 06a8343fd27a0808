(** C44, C45: finding items. C46, C47: JSON. C48: durations. *)
From Coq Require Import ZArith Bool String Ascii List Lia.
From Verif Require Import Base SpecSnapshot ModelObservation ModelSnapshot SnapshotProofs.
Import ListNotations.
Open Scope string_scope.
Open Scope list_scope.

(** a -> 23, b -> (c -> 42, c -> true), b -> "x" *)
Example nested : snapshot :=
  [("a", UInt 23); ("b", ItemSnapshot [("c", Int 42); ("c", Boolean true)]); ("b", Text "x")].

(** ** C44 *)

(** Every path has exactly one list of words ... *)
Theorem c44_paths_have_words : forall sep path,
  exists words, has_words sep path words /\ forall other, has_words sep path other -> other = words.
Proof.
  intros sep path. destruct (has_words_total sep path) as (w & Hw). exists w. split; [exact Hw|].
  intros other Ho. exact (has_words_unique _ _ _ _ Ho Hw).
Qed.
Print Assumptions c44_paths_have_words.

(** ... and what is found is what they lead to. *)
Theorem c44_find_follows_the_words : forall s sep path words i, has_words sep path words ->
  (find_with_separator s path sep = Found i <-> words <> [] /\ leads (ItemSnapshot s) words (Some i)).
Proof. exact find_found_iff. Qed.
Print Assumptions c44_find_follows_the_words.

(** Nothing is found without words, whatever the separators. *)
Theorem c44_no_words : forall s sep path, has_words sep path [] -> find_with_separator s path sep = NotFound.
Proof. exact find_no_words. Qed.
Print Assumptions c44_no_words.

(** Leading, trailing and repeated separators make no difference. *)
Theorem c44_same_words_same_result : forall s sep p q words, has_words sep p words -> has_words sep q words ->
  find_with_separator s p sep = find_with_separator s q sep.
Proof. exact find_same_words. Qed.
Print Assumptions c44_same_words_same_result.

(** The words lead to at most one result. *)
Theorem c44_leads_unique : forall i words a b, leads i words a -> leads i words b -> a = b.
Proof. exact leads_unique. Qed.
Print Assumptions c44_leads_unique.

(** The public function on lists of segments. *)
Theorem c44_find_item_follows : forall i path r, leads i (words_of path) r ->
  find_item i path = match r with Some x => Found x | None => NotFound end.
Proof. exact find_item_follows. Qed.
Print Assumptions c44_find_item_follows.

Example c44_case :
  has_words "/" "//b/c/" ["b"; "c"] /\ has_words "/" "b/c" ["b"; "c"]
  /\ leads (ItemSnapshot nested) ["b"; "c"] (Some (Int 42))
  /\ find nested "//b/c/" = Found (Int 42) /\ find nested "b/c/x/y" = Found (Int 42)
  /\ find nested "b/d" = NotFound /\ find nested "//" = NotFound.
Proof.
  split; [|split; [|split]].
  - exists [""; ""; "b"; "c"; ""]. split; [discriminate|]. split; [|split; reflexivity].
    repeat (constructor; [cbn; repeat split; discriminate|]). constructor.
  - exists ["b"; "c"]. split; [discriminate|]. split; [|split; reflexivity].
    repeat (constructor; [cbn; repeat split; discriminate|]). constructor.
  - eapply leads_on.
    + exists [("a", UInt 23)], [("b", Text "x")]. split; [reflexivity|]. cbn. intros [E|[]]. discriminate E.
    + eapply leads_on; [|apply leads_here]. exists [], [("c", Boolean true)]. split; [reflexivity|]. exact (fun H => H).
  - repeat split; reflexivity.
Qed.

(** ** C45 *)

Theorem c45_step_by_step : forall s sep p q s' words,
  find_with_separator s p sep = Found (ItemSnapshot s') -> has_words sep q words -> words <> [] ->
  found_find_with_separator (find_with_separator s p sep) q sep
  = find_with_separator s (p ++ String sep q)%string sep.
Proof. exact find_stepwise. Qed.
Print Assumptions c45_step_by_step.

(** Values are different: they swallow the rest of a path but contain nothing. *)
Theorem c45_values_differ : forall s sep p q i words,
  find_with_separator s p sep = Found i -> ~ is_group i -> has_words sep q words -> words <> [] ->
  found_find_with_separator (find_with_separator s p sep) q sep = NotFound
  /\ find_with_separator s (p ++ String sep q)%string sep = Found i.
Proof. exact find_stepwise_value. Qed.
Print Assumptions c45_values_differ.

Example c45_case :
  found_find (find nested "b") "/c" = Found (Int 42) /\ find nested "b//c" = Found (Int 42)
  /\ found_find (find nested "a") "c" = NotFound /\ find nested "a/c" = Found (UInt 23).
Proof. repeat split; reflexivity. Qed.

(** ** C46 *)

Theorem c46_json_of_snapshot : forall ints s, json_of ints (ItemSnapshot s) (snapshot_to_json ints s).
Proof. exact snapshot_json_of. Qed.
Print Assumptions c46_json_of_snapshot.

Example c46_case :
  snapshot_to_json true nested = JObject [("a", JInt 23); ("b", JText "x")]
  /\ snapshot_to_json true [("b", ItemSnapshot [("c", Boolean true); ("d", Boolean false)])]
     = JObject [("b", JObject [("c", JInt 1); ("d", JInt 0)])]
  /\ snapshot_to_json false [("c", Boolean true)] = JObject [("c", JBool true)].
Proof. repeat split; reflexivity. Qed.

(** ** C47 *)

(** False with duplicate names, where find takes the first and JSON the last item,
    and for names that contain the separator, which find never finds. *)
Theorem c47_json_and_find_agree_refuted :
  (exists s n i j, In n (map fst s) /\ find s n = Found i
     /\ json_at (snapshot_to_json false s) [n] = Some j /\ j <> item_to_json false i)
  /\ (exists s n j, In n (map fst s) /\ find s n = NotFound /\ json_at (snapshot_to_json false s) [n] = Some j).
Proof.
  split.
  - exists [("a", UInt 1); ("a", UInt 2)], "a", (UInt 1), (JInt 2).
    split; [left; reflexivity|]. split; [reflexivity|]. split; [reflexivity|]. discriminate.
  - exists [("a/b", UInt 1)], "a/b", (JInt 1). split; [left; reflexivity|]. split; reflexivity.
Qed.
Print Assumptions c47_json_and_find_agree_refuted.

(** True for every path on which each name occurs once on its level. *)
Theorem c47_agree_where_unique : forall ints s sep path words i,
  has_words sep path words -> words <> [] -> only_at (ItemSnapshot s) words i ->
  find_with_separator s path sep = Found i
  /\ json_at (snapshot_to_json ints s) words = Some (item_to_json ints i).
Proof. exact json_agrees. Qed.
Print Assumptions c47_agree_where_unique.

Example c47_agree_where_unique_case :
  let s := [("a", UInt 1); ("b", ItemSnapshot [("x", Int 3); ("y", Boolean true)]); ("a", UInt 2)] in
  has_words "." "b.y" ["b"; "y"] /\ only_at (ItemSnapshot s) ["b"; "y"] (Boolean true)
  /\ find_with_separator s "b.y" "." = Found (Boolean true)
  /\ json_at (snapshot_to_json true s) ["b"; "y"] = Some (JInt 1).
Proof.
  cbv zeta. split; [|split; [|split; reflexivity]].
  - exists ["b"; "y"]. split; [discriminate|]. split; [|split; reflexivity].
    repeat (constructor; [cbn; repeat split; discriminate|]). constructor.
  - apply (only_on [("a", UInt 1)] "b" _ [("a", UInt 2)]).
    + cbn. intros [E|[]]. discriminate E.
    + cbn. intros [E|[]]. discriminate E.
    + apply (only_on [("x", Int 3)] "y" _ []); [|exact (fun H => H)|apply only_here].
      cbn. intros [E|[]]. discriminate E.
Qed.

(** ** C48 *)

(** That many units, for integers that are not negative. *)
Theorem c48_durations : forall r v,
  (r = Found (UInt v) \/ (r = Found (Int v) /\ in_i64 v)) -> (0 <= v)%Z ->
  to_duration_nanoseconds r = DDuration v
  /\ to_duration_microseconds r = DDuration (v * 1000)
  /\ to_duration_milliseconds r = DDuration (v * 1000 * 1000)
  /\ to_duration_seconds r = DDuration (v * 1000 * 1000 * 1000).
Proof. exact to_duration_units. Qed.
Print Assumptions c48_durations.

Theorem c48_not_durations : forall r f,
  In f [to_duration_nanoseconds; to_duration_microseconds; to_duration_milliseconds; to_duration_seconds] ->
  (r = NotFound -> f r = DNotFound)
  /\ (forall i, r = Found i -> (forall v, i <> UInt v) -> (forall v, i <> Int v) -> f r = NotADuration).
Proof. exact to_duration_not. Qed.
Print Assumptions c48_not_durations.

(** False for negative integers, which become a very long duration. *)
Theorem c48_negative_refuted : exists v,
  in_i64 v /\ (v < 0)%Z /\ to_duration_seconds (Found (Int v)) = DDuration ((v + two64) * 1000000000).
Proof. exists (-1)%Z. split; [split; discriminate|]. split; [reflexivity|reflexivity]. Qed.
Print Assumptions c48_negative_refuted.

Example c48_case :
  to_duration_milliseconds (find nested "b/c") = DDuration 42000000
  /\ to_duration_seconds (find nested "b") = NotADuration
  /\ to_duration_seconds (find nested "z") = DNotFound.
Proof. repeat split; reflexivity. Qed.
