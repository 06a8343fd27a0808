(** Specification of finding items in snapshots and of their JSON. *)
From Coq Require Import ZArith Bool String Ascii List.
From Verif Require Import Base ModelObservation ModelSnapshot.
Import ListNotations.
Open Scope string_scope.
Open Scope list_scope.

(** ** Paths *)

(** [sep] does not occur in [s]. *)
Fixpoint free_of (sep : ascii) (s : string) : Prop :=
  match s with
  | "" => True
  | String c r => c <> sep /\ free_of sep r
  end.

(** Segments with a separator between each two. *)
Definition joined (sep : ascii) (segs : list string) : string := String.concat (String sep "") segs.

(** The words of a path are its non-empty segments. *)
Definition words_of (segs : list string) : list string := filter (fun s => negb (s =? "")) segs.

Definition has_words (sep : ascii) (path : string) (words : list string) : Prop :=
  exists segs, segs <> [] /\ Forall (free_of sep) segs /\ path = joined sep segs /\ words = words_of segs.

(** ** Following a path *)

Definition is_group (i : item_kind) : Prop := match i with ItemSnapshot _ => True | _ => False end.

(** [i] is the first item called [n]. *)
Definition first_named (n : string) (s : snapshot) (i : item_kind) : Prop :=
  exists before after, s = before ++ (n, i) :: after /\ ~ In n (map fst before).

(** Where a path leads: [None] if a name is missing; a value ends the path early. *)
Inductive leads : item_kind -> list string -> option item_kind -> Prop :=
| leads_here : forall i, leads i [] (Some i)
| leads_value : forall i n words, ~ is_group i -> leads i (n :: words) (Some i)
| leads_on : forall s n i words r,
    first_named n s i -> leads i words r -> leads (ItemSnapshot s) (n :: words) r
| leads_nowhere : forall s n words,
    ~ In n (map fst s) -> leads (ItemSnapshot s) (n :: words) None.

(** The path leads to [i] and every name on it occurs only once on its level. *)
Inductive only_at : item_kind -> list string -> item_kind -> Prop :=
| only_here : forall i, only_at i [] i
| only_on : forall before n i after words r,
    ~ In n (map fst before) -> ~ In n (map fst after) -> only_at i words r ->
    only_at (ItemSnapshot (before ++ (n, i) :: after)) (n :: words) r.

(** ** JSON *)

(** [i] is the last item called [n]. *)
Definition last_named (n : string) (s : snapshot) (i : item_kind) : Prop :=
  exists before after, s = before ++ (n, i) :: after /\ ~ In n (map fst after).

(** The JSON of an item. An object has the names of the snapshot, each once, and the
    value of the last item with the name. *)
Inductive json_of (ints : bool) : item_kind -> json -> Prop :=
| json_text : forall t, json_of ints (Text t) (JText t)
| json_bool : forall b, ints = false -> json_of ints (Boolean b) (JBool b)
| json_true : ints = true -> json_of ints (Boolean true) (JInt 1)
| json_false : ints = true -> json_of ints (Boolean false) (JInt 0)
| json_float : forall f, json_of ints (Float f) (JFloat f)
| json_uint : forall v, json_of ints (UInt v) (JInt v)
| json_int : forall v, json_of ints (Int v) (JInt v)
| json_group : forall s fields,
    NoDup (map fst fields) -> (forall n, In n (map fst fields) <-> In n (map fst s)) ->
    (forall n i j, last_named n s i -> In (n, j) fields -> json_of ints i j) ->
    json_of ints (ItemSnapshot s) (JObject fields).

(** The value in an object that a path of names leads to. *)
Fixpoint json_at (j : json) (words : list string) : option json :=
  match words with
  | [] => Some j
  | n :: rest =>
      match j with
      | JObject fields =>
          match List.find (fun f => fst f =? n) fields with
          | Some (_, j') => json_at j' rest
          | None => None
          end
      | _ => None
      end
  end.
