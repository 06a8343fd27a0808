(** Model of src/instruments/jemalloc.rs (feature [jemalloc-ctl]). *)
From Coq Require Import ZArith Bool String List.
From Verif Require Import Base ModelSnapshot ModelValues.
Import ListNotations.
Open Scope string_scope.

(** What the calls into [jemalloc_ctl] return while a snapshot is written; [None]
    is an error. The numbers are of type [usize], that of arenas of type [u32]. *)
Record allocator := Allocator {
  al_advance : option unit;
  al_active : option Z;
  al_allocated : option Z;
  al_mapped : option Z;
  al_metadata : option Z;
  al_resident : option Z;
  al_retained : option Z;
  al_narenas : option Z;
  al_max_background_threads : option Z
}.

(** jemalloc.rs 11-82; logging is left out, [return] leaves [into] as it is. *)
Definition jemalloc_put (a : allocator) (descriptive : bool) (into : snapshot) : snapshot :=
  match al_advance a with
  | None => into
  | Some _ =>
  match al_active a with
  | None => into
  | Some bytes => let s := push_source [] "active" (FromPrimitive (PUSize bytes)) in
  match al_allocated a with
  | None => into
  | Some bytes => let s := push_source s "allocated" (FromPrimitive (PUSize bytes)) in
  match al_mapped a with
  | None => into
  | Some bytes => let s := push_source s "mapped" (FromPrimitive (PUSize bytes)) in
  match al_metadata a with
  | None => into
  | Some bytes => let s := push_source s "metadata" (FromPrimitive (PUSize bytes)) in
  match al_resident a with
  | None => into
  | Some bytes => let s := push_source s "resident" (FromPrimitive (PUSize bytes)) in
  match al_retained a with
  | None => into
  | Some bytes => let s := push_source s "retained" (FromPrimitive (PUSize bytes)) in
  let into := push_source into "stats" (FromSnapshot s) in
  match al_narenas a with
  | None => into
  | Some n =>
  let into := push_source into "arenas" (FromSnapshot (push_source [] "narenas" (FromPrimitive (PU32 n)))) in
  match al_max_background_threads a with
  | Some n => push_source into "max_background_threads" (FromPrimitive (PUSize n))
  | None => into
  end end end end end end end end end.
