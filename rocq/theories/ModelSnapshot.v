(** Model of src/snapshot.rs and src/util.rs. *)
From Coq Require Import ZArith Bool List String Ascii Floats.SpecFloat.
From Verif Require Import Base ModelObservation.
Import ListNotations.
Open Scope Z_scope.

(** src/snapshot.rs 327-337 and 12-14. [ItemSnapshot] holds the items of the
    nested [Snapshot]. *)
Inductive item_kind :=
| Text (s : string)
| Boolean (b : bool)
| Float (f : f64)
| UInt (v : Z)
| Int (v : Z)
| ItemSnapshot (items : list (string * item_kind)).

(** src/snapshot.rs 12-14 *)
Definition snapshot := list (string * item_kind).

(** src/snapshot.rs 16-20 *)
Definition snapshot_default : snapshot := [].

(** src/snapshot.rs 23-25 [Snapshot::push] and [Snapshot.items.push] *)
Definition push (s : snapshot) (k : string) (v : item_kind) : snapshot := s ++ [(k, v)].

(** src/snapshot.rs 376-388, src/observation.rs 93-102 *)
Definition to_item_kind (v : observed_value) : option item_kind :=
  match v with
  | SignedInteger v => Some (Int v)
  | UnsignedInteger v => Some (UInt v)
  | FloatValue v => Some (Float v)
  | BoolValue v => Some (Boolean v)
  | DurationValue _ _ => None
  | ChangedBy _ => None
  end.

(** ** Finding *)

(** [str::split(separator)] *)
Fixpoint split (sep : ascii) (s : string) : list string :=
  match s with
  | EmptyString => [EmptyString]
  | String c rest =>
      if Ascii.eqb c sep then EmptyString :: split sep rest
      else
        match split sep rest with
        | [] => [String c EmptyString]
        | seg :: segs => String c seg :: segs
        end
  end.

(** [.iter().find(|(name,_)| name == k).map(|x| &x.1)] *)
Fixpoint lookup (k : string) (s : snapshot) : option item_kind :=
  match s with
  | [] => None
  | (n, v) :: rest => if String.eqb n k then Some v else lookup k rest
  end.

(** src/snapshot.rs 216-220 *)
Inductive find_result := Found (i : item_kind) | NotFound.

(** src/snapshot.rs 187-214 *)
Fixpoint find_item (item : item_kind) (path : list string) : find_result :=
  match path with
  | [] => Found item
  | seg :: rest =>
      if string_is_empty seg then find_item item rest
      else
        match item with
        | ItemSnapshot items =>
            match lookup seg items with
            | Some item' => find_item item' rest
            | None => NotFound
            end
        | other => Found other
        end
  end.

(** src/snapshot.rs 30-47. The separator is an ASCII character; Rust allows
    any [char]. *)
Definition find_with_separator (s : snapshot) (path : string) (sep : ascii) : find_result :=
  match filter (fun x => negb (string_is_empty x)) (split sep path) with
  | [] => NotFound
  | seg :: rest =>
      match lookup seg s with
      | Some item => find_item item rest
      | None => NotFound
      end
  end.

(** src/snapshot.rs 96-98 *)
Definition find (s : snapshot) (path : string) : find_result :=
  find_with_separator s path "/"%char.

(** src/snapshot.rs 231-238 [FindItem::find_with_separator] *)
Definition found_find_with_separator (r : find_result) (path : string) (sep : ascii)
  : find_result :=
  match r with
  | Found (ItemSnapshot s) => find_with_separator s path sep
  | _ => NotFound
  end.

(** src/snapshot.rs 240-242 *)
Definition found_find (r : find_result) (path : string) : find_result :=
  found_find_with_separator r path "/"%char.

(** src/snapshot.rs 300-304 *)
Inductive find_duration :=
| DNotFound
| NotADuration
| DDuration (nanos : Z).

(** src/snapshot.rs 244-286; [unit] is the number of nanoseconds of the unit
    ([Duration::from_nanos] ... [from_secs]); [*v as u64] wraps. *)
Definition to_duration (unit : Z) (r : find_result) : find_duration :=
  match r with
  | Found (UInt v) => DDuration (v * unit)
  | Found (Int v) => DDuration (wrap_u64 v * unit)
  | Found _ => NotADuration
  | NotFound => DNotFound
  end.
Definition to_duration_nanoseconds := to_duration 1.
Definition to_duration_microseconds := to_duration 1000.
Definition to_duration_milliseconds := to_duration 1000000.
Definition to_duration_seconds := to_duration 1000000000.

(** ** JSON *)

(** The values of the [json] crate which are produced here. Numbers keep the
    Rust value they were made from; an object is its list of fields in
    insertion order. *)
Inductive json :=
| JText (s : string)
| JBool (b : bool)
| JFloat (f : f64)
| JInt (z : Z)
| JObject (fields : list (string * json)).

(** [data[k] = v] on an object (json crate, [IndexMut<&str>]): replaces the
    value of an existing key in place, otherwise appends. *)
Fixpoint json_set (fields : list (string * json)) (k : string) (v : json)
  : list (string * json) :=
  match fields with
  | [] => [(k, v)]
  | (k', v') :: rest =>
      if String.eqb k' k then (k', v) :: rest else (k', v') :: json_set rest k v
  end.

(** src/snapshot.rs 340-359 and 120-128 *)
Fixpoint item_to_json (make_booleans_ints : bool) (i : item_kind) : json :=
  match i with
  | Text v => JText v
  | Boolean v =>
      if make_booleans_ints then (if v then JInt 1 else JInt 0) else JBool v
  | Float v => JFloat v
  | UInt v => JInt v
  | Int v => JInt v
  | ItemSnapshot items =>
      JObject
        ((fix go (l : list (string * item_kind)) (data : list (string * json)) :=
            match l with
            | [] => data
            | (k, v) :: rest => go rest (json_set data k (item_to_json make_booleans_ints v))
            end) items [])
  end.

(** src/snapshot.rs 120-128 *)
Definition snapshot_to_json (make_booleans_ints : bool) (s : snapshot) : json :=
  item_to_json make_booleans_ints (ItemSnapshot s).

(** ** src/util.rs *)

(** [Descriptive] (src/lib.rs): title and description *)
Record descr := Descr { d_title : option string; d_description : option string }.
Definition no_descr : descr := Descr None None.

Definition title_field_label : string := "_title".             (* util.rs 6 *)
Definition description_field_label : string := "_description". (* util.rs 7 *)

(** util.rs 28-36, 38-46, 55-68, 70-83: push [label -> text] unless the label
    is already there *)
Definition put_text_once (label : string) (text : option string) (into : snapshot) : snapshot :=
  match text with
  | None => into
  | Some t =>
      match lookup label into with
      | None => push into label (Text t)
      | Some _ => into
      end
  end.

(** src/util.rs 49-84 *)
Definition put_descriptives (what : descr) (title_label description_label : string)
  (into : snapshot) : snapshot :=
  put_text_once description_label (d_description what)
    (put_text_once title_label (d_title what) into).

(** src/util.rs 9-16 *)
Definition put_default_descriptives (what : descr) (into : snapshot) (add : bool) : snapshot :=
  if add then put_descriptives what title_field_label description_field_label into
  else into.

(** src/util.rs 18-47 *)
Definition put_postfixed_descriptives (what : descr) (postfix : string) (into : snapshot)
  (add : bool) : snapshot :=
  if negb add then into
  else
    put_text_once (description_field_label ++ "_" ++ postfix) (d_description what)
      (put_text_once (title_field_label ++ "_" ++ postfix) (d_title what) into).
