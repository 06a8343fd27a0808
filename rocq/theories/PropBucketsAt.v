(** C92. *)
From Coq Require Import ZArith Bool String List Lia.
From Verif Require Import Base SpecRun ModelBuckets ModelBucketsAt SpecBucketsAt BucketsAtProofs.
Import ListNotations.
Open Scope Z_scope.

(** Any use of a window of seconds is answered like by a book with one record for
    each second: [current_mut] writes into the second the time is in, [get_at_mut]
    into the one at whose end the time is, if this is one of the newest [n]. *)
Theorem c92_window : forall (T : Type) (default : T) n l k c b c1 r c2,
  buckets_new default n k c = Ok b c1 -> use_all default b l k c1 = Ok r c2 ->
  r = write_all n (c 0%nat) (Book 0 (fun _ => default)) (map c (seq 1 (length l))) l.
Proof. intros T default. exact (used_window default). Qed.
Print Assumptions c92_window.

(** What was recorded at a time a whole number of seconds after the creation of
    the window is found by this time, after any use of the window and as long as it
    is not older than the window. Missing: other times. *)
Theorem c92_found_partial : forall (T : Type) (default : T) n l k c b c1 r c2 s x v,
  (forall i j, (i <= j)%nat -> c i <= c j) ->
  let t := c (S (length l)) in let later := c (S (S (S (length l)))) in
  t = c 0%nat + s * nanos_per_sec -> later < t + Z.of_nat n * nanos_per_sec ->
  buckets_new default n k c = Ok b c1 ->
  use_all default b (l ++ [Record (fun _ => x); Amend t v; Look]) k c1 = Ok r c2 ->
  exists before shown, r = before ++ [Done; Amended true; Shown shown]
    /\ nth_error shown (Z.to_nat (second_of t later)) = Some (v x).
Proof. intros T default. exact (change_found default). Qed.
Print Assumptions c92_found_partial.

(** At all other times [get_at_mut] looks one second later than [current_mut]. *)
Theorem c92_other_times : forall t0 t, (t - t0) mod nanos_per_sec <> 0 -> second_up t0 t = second_of t0 t + 1.
Proof. exact other_times. Qed.
Print Assumptions c92_other_times.

(** So what was recorded half a second after a whole one is not found: right then
    there is nothing, and a second later the wrong record is changed. *)
Definition ticking (times : list Z) : clock := fun n => nth n times 0.

Theorem c92_found_refuted : exists n (times : list Z) b c1 r r' c2 c2',
  let c := ticking times in let t := c 1%nat in
  (forall i j, (i <= j < length times)%nat -> c i <= c j)
  /\ c 3%nat < t + Z.of_nat n * nanos_per_sec
  /\ buckets_new 0 n debug c = Ok b c1
  /\ use_all 0 b [Record (fun _ => 7); Amend t (fun x => x + 1)] debug c1 = Ok r c2 /\ r = [Done; Amended false]
  /\ use_all 0 b [Record (fun _ => 7); Look; Amend t (fun x => x + 1); Look] debug c1 = Ok r' c2'
  /\ r' = [Done; Shown [7; 0; 0]; Amended true; Shown [1; 7; 0]].
Proof.
  exists 3%nat, [1000000000; 1500000000; 1600000000; 2100000000; 2200000000].
  do 6 eexists. cbv zeta. split.
  - intros i j [H1 H2]. cbn in H2. unfold ticking.
    do 5 (destruct i as [|i]; [do 5 (destruct j as [|j]; [cbn; lia|]); lia|]). lia.
  - split; [vm_compute; reflexivity|]. split; [vm_compute; reflexivity|].
    split; [vm_compute; reflexivity|]. split; [reflexivity|]. split; [vm_compute; reflexivity|]. reflexivity.
Qed.
Print Assumptions c92_found_refuted.

(** ** Cases *)

Definition whole : clock := ticking [1000000000; 1300000000; 3000000000; 3200000000; 4100000000; 4200000000].

Example c92_found_case :
  match buckets_new 0 3 debug whole with
  | Ok b c1 =>
      match use_all 0 b ([Record (fun x => x + 5)] ++ [Record (fun _ => 20); Amend (whole 2%nat) (fun x => x * 2); Look])
              debug c1 with
      | Ok r _ => r = [Done; Done; Amended true; Shown [0; 40; 0]]
      | _ => False
      end
  | _ => False
  end
  /\ whole 2%nat = whole 0%nat + 2 * nanos_per_sec /\ second_of (whole 2%nat) (whole 4%nat) = 1.
Proof. vm_compute. repeat split. Qed.

Example c92_window_case :
  write_all 3 1000000000 (Book 0 (fun _ => 0)) [1300000000; 3000000000; 3200000000; 9000000000]
    [Record (fun x => x + 5); Look; Amend 2000000000 (fun x => x + 1); Amend 2000000000 (fun x => x + 1)]
  = [Done; Shown [0; 0; 5]; Amended true; Amended false].
Proof. vm_compute. reflexivity. Qed.
