(** Proofs about configuring panels, cockpits, processors and mounts. *)
From Coq Require Import ZArith Bool String List Lia.
From Verif Require Import Base SpecRun MonadFacts ModelObservation ModelLabelFilter ModelSnapshot
  ModelHistogram ModelInstrument ModelTree ModelProcessor TreeEqs ModelDriver ModelConfig SpecConfig ConfigProofs.
Import ListNotations.
Open Scope Z_scope.

Lemma run_arrivals {A U} (config : A -> setting -> M A) (upd : A -> U -> M (A * Z)) (bare : A -> A) :
  (forall x s k c, exists x', config x s k c = Ok x' c /\ bare x' = bare x) ->
  (forall x u k c,
     upd (bare x) u k c =
     match upd x u k c with Ok (x', n) c' => Ok (bare x', n) c' | Panic => Panic | NoFuel => NoFuel end) ->
  forall h x k c x' ns c',
    run_all (live config upd) x h k c = Ok (x', ns) c' ->
    exists ns', run_all (live config upd) (bare x) (arrivals h) k c = Ok (bare x', ns') c'.
Proof.
  intros Hp Hu. induction h as [|e h IH]; intros x k c x' ns c' R.
  - cbn in R. injection R as <- _ <-. exists []. reflexivity.
  - cbn [run_all] in R. apply bind_ok in R as ([x1 n] & c1 & R1 & R).
    apply bind_ok in R as ([x2 ns2] & c2 & R2 & R). injection R as <- _ <-.
    destruct (IH _ _ _ _ _ _ R2) as (ns' & R3).
    destruct e as [s|u]; cbn [live] in R1; unfold arrivals; cbn [filter]; fold (arrivals h).
    + apply bind_ok in R1 as (x3 & c3 & R1 & R4). injection R4 as -> _ ->.
      destruct (Hp x s k c) as (x4 & E & B). rewrite E in R1. injection R1 as -> ->.
      rewrite <- B. exists ns'. exact R3.
    + pose proof (Hu x u k c) as E. rewrite R1 in E. exists (n :: ns').
      cbn [run_all live]. unfold bind. rewrite E. rewrite R3. reflexivity.
Qed.

Lemma default_descriptives t d b :
  put_default_descriptives (Descr t d) [] b =
  if b then text_field "_title" t ++ text_field "_description" d else [].
Proof.
  unfold put_default_descriptives, put_descriptives. destruct b; [|reflexivity].
  destruct t as [t|], d as [d|]; reflexivity.
Qed.

(** What a group writes, from what it contains *)
Lemma group_written {A} name t d limit show b last (x : A) (rest : snapshot -> M (A * snapshot)) k (c : clock) :
  written (put_named name (fun into => check_activity limit show last x rest
             (put_default_descriptives (Descr t d) into b)) []) k c =
  group_fields name t d limit show b last (fun into => written (rest into)) k c.
Proof.
  unfold written, put_named, group_fields, check_activity, push_activity, push, snapshot_default.
  destruct name as [n|]; unfold bind, ret; rewrite default_descriptives;
    destruct limit as [l|]; [destruct show| |destruct show|]; unfold bind, ret; rewrite <- ?app_assoc; cbn [app negb];
    same_run.
Qed.

Lemma group_fields_same name t d limit show b last f g k (c : clock) :
  (forall into k (c : clock), f into k c = g into k c) ->
  group_fields name t d limit show b last f k c = group_fields name t d limit show b last g k c.
Proof.
  intros E. unfold group_fields. destruct name as [n|]; unfold bind, ret;
    destruct limit as [l|]; [destruct show| |destruct show|]; unfold bind, ret; rewrite ?E; try reflexivity;
    destruct (elapsed last k c) as [e c1| |]; try reflexivity; destruct (l <? e); rewrite ?E; reflexivity.
Qed.

Section Trees.
  Context {X : ext}.

  Definition bare_panel (p : panel X) : panel X :=
    let '(Panel d sl ps hs ss) := p in
    Panel (PanelData (pd_filter d) None no_descr (pd_last_update d) None true) sl ps hs ss.

  Lemma panel_handle_bare (p : panel X) o k (c : clock) :
    panel_handle (bare_panel p) o k c =
    match panel_handle p o k c with
    | Ok (x', n) c' => Ok (bare_panel x', n) c' | Panic => Panic | NoFuel => NoFuel
    end.
  Proof.
    destruct p as [d sl ps hs ss]. cbn [bare_panel panel_handle pd_filter].
    destruct (accepts _ _ _); cbn [negb]; [|reflexivity]. unfold bind, ret.
    destruct (slots_handle sl o 0 k c) as [[sl1 n1] c1| |]; try reflexivity.
    destruct (traverse _ ps n1 k c1) as [[ps1 n2] c2| |]; try reflexivity.
    destruct (traverse _ hs n2 k c2) as [[hs1 n3] c3| |]; reflexivity.
  Qed.

  Lemma panel_handle_keeps (p : panel X) o k (c : clock) p' n c' :
    panel_handle p o k c = Ok (p', n) c' -> p_data p' = p_data p.
  Proof.
    destruct p as [d sl ps hs ss]. cbn [panel_handle]. intros R.
    destruct (accepts _ _ _); cbn [negb] in R; steps; reflexivity.
  Qed.

  Ltac panel_field := let s := fresh "s" in let R := fresh "R" in
    intros [? ? ? ? ?] s ? ? ? ? R; destruct s; cbn in R; injection R as <- _; reflexivity.

  Lemma panel_life (x0 : panel X) h k c x ns c' :
    panel_name x0 = None -> pd_descr (p_data x0) = no_descr -> pd_limit (p_data x0) = None ->
    pd_show_activity (p_data x0) = true ->
    run_all (live panel_config panel_handle) x0 h k c = Ok (x, ns) c' ->
    panel_name x = asked a_opt_name None h /\
    (forall l, panel_accepts_label x l = panel_accepts_label x0 l) /\
    exists y ns',
      run_all (live panel_config panel_handle) x0 (arrivals h) k c = Ok (y, ns') c' /\
      forall b k2 c2,
        written (panel_put x b []) k2 c2 =
        group_fields (asked a_opt_name None h) (asked a_title None h) (asked a_description None h)
          (asked a_limit None h) (asked a_show_activity true h) b (pd_last_update (p_data x0))
          (fun into => written (panel_put y b into)) k2 c2.
  Proof.
    intros N D L S R.
    assert (bare_panel x0 = x0) as B.
    { destruct x0 as [[] ? ? ? ?]. unfold panel_name in N. cbn in *. subst. reflexivity. }
    destruct (run_arrivals panel_config panel_handle bare_panel
                ltac:(intros [? ? ? ? ?] s ? ?; destruct s; eexists; split; reflexivity)
                panel_handle_bare h _ _ _ _ _ _ R) as (ns' & R'). rewrite B in R'.
    pose proof (run_option panel_config panel_handle p_data pd_name a_opt_name
                  ltac:(panel_field) panel_handle_keeps _ _ _ _ _ _ _ R) as En.
    pose proof (run_option panel_config panel_handle p_data (fun d => d_title (pd_descr d)) a_title
                  ltac:(panel_field) panel_handle_keeps _ _ _ _ _ _ _ R) as Et.
    pose proof (run_option panel_config panel_handle p_data (fun d => d_description (pd_descr d)) a_description
                  ltac:(panel_field) panel_handle_keeps _ _ _ _ _ _ _ R) as Ed.
    pose proof (run_option panel_config panel_handle p_data pd_limit a_limit
                  ltac:(panel_field) panel_handle_keeps _ _ _ _ _ _ _ R) as El.
    pose proof (run_option panel_config panel_handle p_data pd_show_activity a_show_activity
                  ltac:(panel_field) panel_handle_keeps _ _ _ _ _ _ _ R) as Es.
    assert (pd_filter (p_data x) = pd_filter (p_data x0)) as Ef.
    { pose proof (run_option panel_config panel_handle p_data pd_filter (fun _ => None)
                    ltac:(panel_field) panel_handle_keeps _ _ _ _ _ _ _ R) as Ef.
      rewrite Ef. clear. unfold asked, latest. generalize (pd_filter (p_data x0)).
      induction h as [|[]]; cbn; auto. }
    assert (pd_last_update (p_data x) = pd_last_update (p_data x0)) as Eu.
    { pose proof (run_option panel_config panel_handle p_data pd_last_update (fun _ => None)
                    ltac:(panel_field) panel_handle_keeps _ _ _ _ _ _ _ R) as Eu.
      rewrite Eu. clear. unfold asked, latest. generalize (pd_last_update (p_data x0)).
      induction h as [|[]]; cbn; auto. }
    unfold panel_name in *. rewrite N in En. rewrite D in Et, Ed. rewrite L in El. rewrite S in Es.
    cbn [d_title d_description no_descr] in Et, Ed.
    split; [exact En|]. split.
    { intros l. unfold panel_accepts_label. rewrite Ef. reflexivity. }
    exists (bare_panel x), ns'. split; [exact R'|]. intros b k2 c2.
    rewrite <- En, <- Et, <- Ed, <- El, <- Es, <- Eu. destruct x as [d sl ps hs ss]. cbn [p_data].
    rewrite panel_put_eq. destruct (pd_descr d) as [t de] eqn:De. cbn [d_title d_description].
    rewrite group_written. apply group_fields_same. intros into k3 c3. unfold written. cbn [bare_panel].
    rewrite panel_put_eq. cbn [pd_name pd_limit pd_descr put_named check_activity].
    assert (put_default_descriptives no_descr into b = into) as -> by (destruct b; reflexivity).
    unfold bind, ret. same_run.
  Qed.

  Definition bare_cockpit (p : cockpit X) : cockpit X :=
    let '(Cockpit d ps hs ss) := p in
    Cockpit (CockpitData None no_descr (cd_last_activity d) None true) ps hs ss.

  Lemma cockpit_handle_bare (p : cockpit X) o k (c : clock) :
    cockpit_handle (bare_cockpit p) o k c =
    match cockpit_handle p o k c with
    | Ok (x', n) c' => Ok (bare_cockpit x', n) c' | Panic => Panic | NoFuel => NoFuel
    end.
  Proof.
    destruct p as [d ps hs ss]. cbn [bare_cockpit]. rewrite !cockpit_handle_eq. unfold bind, ret, now.
    destruct (traverse _ hs 0 k _) as [[hs1 n1] c1| |]; try reflexivity.
    destruct (traverse _ ps n1 k c1) as [[ps1 n2] c2| |]; reflexivity.
  Qed.

  Definition cockpit_options (p : cockpit X) :=
    (cockpit_name p, cd_descr (c_data p), cd_limit (c_data p), cd_show_activity (c_data p)).

  Lemma cockpit_handle_keeps (p : cockpit X) o k (c : clock) p' n c' :
    cockpit_handle p o k c = Ok (p', n) c' -> cockpit_options p' = cockpit_options p.
  Proof.
    destruct p as [d ps hs ss]. rewrite cockpit_handle_eq. intros R. steps. reflexivity.
  Qed.

  Ltac cockpit_field := let s := fresh "s" in let R := fresh "R" in
    intros [? ? ? ?] s ? ? ? ? R; destruct s; cbn in R; injection R as <- _; reflexivity.

  Lemma cockpit_life (x0 : cockpit X) h k c x ns c' :
    cockpit_name x0 = None -> cd_descr (c_data x0) = no_descr -> cd_limit (c_data x0) = None ->
    cd_show_activity (c_data x0) = true ->
    run_all (live cockpit_config cockpit_handle) x0 h k c = Ok (x, ns) c' ->
    cockpit_name x = asked a_opt_name None h /\
    exists y ns',
      run_all (live cockpit_config cockpit_handle) x0 (arrivals h) k c = Ok (y, ns') c' /\
      forall b k2 c2,
        written (cockpit_put x b []) k2 c2 =
        group_fields (asked a_opt_name None h) (asked a_title None h) (asked a_description None h)
          (asked a_limit None h) (asked a_show_activity true h) b (cd_last_activity (c_data y))
          (fun into => written (cockpit_put y b into)) k2 c2.
  Proof.
    intros N D L S R.
    assert (bare_cockpit x0 = x0) as B.
    { destruct x0 as [[] ? ? ?]. unfold cockpit_name in N. cbn in *. subst. reflexivity. }
    destruct (run_arrivals cockpit_config cockpit_handle bare_cockpit
                ltac:(intros [? ? ? ?] s ? ?; destruct s; eexists; split; reflexivity)
                cockpit_handle_bare h _ _ _ _ _ _ R) as (ns' & R'). rewrite B in R'.
    pose proof (run_option cockpit_config cockpit_handle cockpit_options (fun '(n, _, _, _) => n) a_opt_name
                  ltac:(cockpit_field) cockpit_handle_keeps _ _ _ _ _ _ _ R) as En.
    pose proof (run_option cockpit_config cockpit_handle cockpit_options (fun '(_, d, _, _) => d_title d) a_title
                  ltac:(cockpit_field) cockpit_handle_keeps _ _ _ _ _ _ _ R) as Et.
    pose proof (run_option cockpit_config cockpit_handle cockpit_options (fun '(_, d, _, _) => d_description d) a_description
                  ltac:(cockpit_field) cockpit_handle_keeps _ _ _ _ _ _ _ R) as Ed.
    pose proof (run_option cockpit_config cockpit_handle cockpit_options (fun '(_, _, l, _) => l) a_limit
                  ltac:(cockpit_field) cockpit_handle_keeps _ _ _ _ _ _ _ R) as El.
    pose proof (run_option cockpit_config cockpit_handle cockpit_options (fun '(_, _, _, a) => a) a_show_activity
                  ltac:(cockpit_field) cockpit_handle_keeps _ _ _ _ _ _ _ R) as Es.
    unfold cockpit_options in *. rewrite N in En. rewrite D in Et, Ed. rewrite L in El. rewrite S in Es.
    cbn [d_title d_description no_descr] in Et, Ed.
    split; [exact En|].
    exists (bare_cockpit x), ns'. split; [exact R'|]. intros b k2 c2.
    rewrite <- En, <- Et, <- Ed, <- El, <- Es. destruct x as [d ps hs ss]. cbn [c_data cockpit_name bare_cockpit].
    unfold cockpit_name. cbn [c_data cd_last_activity].
    rewrite cockpit_put_eq. destruct (cd_descr d) as [t de] eqn:De. cbn [d_title d_description].
    rewrite group_written. apply group_fields_same. intros into k3 c3. unfold written.
    rewrite cockpit_put_eq. cbn [cd_name cd_limit cd_descr put_named check_activity].
    assert (put_default_descriptives no_descr into b = into) as -> by (destruct b; reflexivity).
    unfold bind, ret. same_run.
  Qed.

  (** A processor and a mount have no title and no description to set. *)
  Definition bare_tele (p : tele X) : tele X :=
    Tele None no_descr (tp_cockpits p) (tp_handlers p) (tp_receiver p) (tp_snapshooters p) (tp_last_activity p) None true
      (tp_disconnected p).

  Ltac tele_field := let s := fresh "s" in let R := fresh "R" in
    intros ? s ? ? ? ? R; destruct s; cbn in R; injection R as <- _; reflexivity.

  Lemma configured_run {A} (config : A -> setting -> M A) l x k (c : clock) x' c' :
    configured config x l k c = Ok x' c' ->
    exists ns, run_all (live config nothing_arrives) x (map Sets l) k c = Ok (x', ns) c'.
  Proof.
    revert x k c. induction l as [|s l IH]; intros x k c R.
    - cbn in R. injection R as <- <-. exists []. reflexivity.
    - cbn [configured] in R. apply bind_ok in R as (x1 & c1 & R1 & R2).
      destruct (IH _ _ _ R2) as (ns & E). exists (0 :: ns). cbn [map run_all live]. unfold bind. rewrite R1. cbn.
      rewrite E. reflexivity.
  Qed.

  Lemma asked_sets {A} (pick : setting -> option A) d l :
    asked (U := update) pick d (map Sets l) = latest pick d l.
  Proof. unfold asked, latest. revert d. induction l; intros; cbn; auto. Qed.

  Lemma tele_life (x0 : tele X) l k c x c' :
    tp_name x0 = None -> tp_descr x0 = no_descr -> tp_limit x0 = None -> tp_show_activity x0 = true ->
    configured tele_config x0 l k c = Ok x c' ->
    tp_name x = latest a_opt_name None l /\ tp_receiver x = tp_receiver x0 /\ tp_disconnected x = tp_disconnected x0 /\
    forall b k2 c2,
      written (tele_put x b []) k2 c2 =
      group_fields (latest a_opt_name None l) None None
        (latest a_limit None l) (latest a_show_activity true l) b (tp_last_activity x0)
        (fun into => written (tele_put x0 b into)) k2 c2.
  Proof.
    intros N D L S R. apply configured_run in R as (ns & R).
    assert (bare_tele x0 = x0) as B.
    { destruct x0. cbn in *. subst. reflexivity. }
    destruct (run_arrivals tele_config nothing_arrives bare_tele
                ltac:(intros ? s ? ?; destruct s; eexists; split; reflexivity)
                ltac:(reflexivity) _ _ _ _ _ _ _ R) as (ns' & R'). rewrite B in R'.
    assert (arrivals (U := update) (map Sets l) = []) as E0 by (clear; induction l; auto).
    rewrite E0 in R'. cbn in R'. injection R' as E0' _ _. clear E0. rename E0' into E0.
    pose proof (run_field tele_config nothing_arrives tp_name a_opt_name
                  ltac:(tele_field) (nothing_keeps _) _ _ _ _ _ _ _ R) as En.
    pose proof (run_field tele_config nothing_arrives tp_descr (fun _ => None)
                  ltac:(tele_field) (nothing_keeps _) _ _ _ _ _ _ _ R) as Ed.
    pose proof (run_field tele_config nothing_arrives tp_limit a_limit
                  ltac:(tele_field) (nothing_keeps _) _ _ _ _ _ _ _ R) as El.
    pose proof (run_field tele_config nothing_arrives tp_show_activity a_show_activity
                  ltac:(tele_field) (nothing_keeps _) _ _ _ _ _ _ _ R) as Es.
    rewrite asked_sets in En. rewrite asked_sets in Ed. rewrite asked_sets in El. rewrite asked_sets in Es.
    assert (tp_descr x = no_descr) as Ed'.
    { rewrite Ed, D. clear. unfold latest. induction l; auto. }
    rewrite N in En. rewrite L in El. rewrite S in Es. rewrite <- En, <- El, <- Es.
    split; [reflexivity|]. split; [rewrite E0; reflexivity|]. split; [rewrite E0; reflexivity|].
    intros b k2 c2. rewrite E0. unfold tele_put at 1. rewrite Ed'. unfold no_descr.
    rewrite group_written. apply group_fields_same. intros into k3 c3. unfold written, tele_put. cbn.
    assert (put_default_descriptives no_descr into b = into) as -> by (destruct b; reflexivity).
    unfold bind, ret. same_run.
  Qed.

  Context {Y : pext}.

  Definition bare_mount (p : mount X Y) : mount X Y :=
    let '(Mount d ps ss) := p in Mount (MountData None no_descr (md_last_activity d) None) ps ss.
  Definition m_data (p : mount X Y) : mount_data := let '(Mount d _ _) := p in d.

  Ltac mount_field := let s := fresh "s" in let R := fresh "R" in
    intros [? ? ?] s ? ? ? ? R; destruct s; cbn in R; injection R as <- _; reflexivity.

  Lemma mount_life d ps ss l k c x c' :
    md_name d = None -> md_descr d = no_descr -> md_limit d = None ->
    configured (mount_config (X := X) (Y := Y)) (Mount d ps ss) l k c = Ok x c' ->
    forall b k2 c2,
      written (mount_put x b []) k2 c2 =
      group_fields (latest a_opt_name None l) None None (latest a_limit None l) true b (md_last_activity d)
        (fun into => written (mount_put (Mount d ps ss) b into)) k2 c2.
  Proof.
    intros N D L R. apply configured_run in R as (ns & R).
    assert (bare_mount (Mount d ps ss) = Mount d ps ss) as B.
    { destruct d. cbn in *. subst. reflexivity. }
    destruct (run_arrivals (mount_config (X := X) (Y := Y)) nothing_arrives bare_mount
                ltac:(intros [? ? ?] s ? ?; destruct s; eexists; split; reflexivity)
                ltac:(reflexivity) _ _ _ _ _ _ _ R) as (ns' & R'). rewrite B in R'.
    assert (arrivals (U := update) (map Sets l) = []) as E0 by (clear; induction l; auto).
    rewrite E0 in R'. cbn [run_all] in R'. injection R' as E0' _ _. clear E0. rename E0' into E0.
    pose proof (run_field (mount_config (X := X) (Y := Y)) nothing_arrives (fun x => md_name (m_data x)) a_opt_name
                  ltac:(mount_field) (nothing_keeps _) _ _ _ _ _ _ _ R) as En.
    pose proof (run_field (mount_config (X := X) (Y := Y)) nothing_arrives (fun x => md_descr (m_data x)) (fun _ => None)
                  ltac:(mount_field) (nothing_keeps _) _ _ _ _ _ _ _ R) as Ed.
    pose proof (run_field (mount_config (X := X) (Y := Y)) nothing_arrives (fun x => md_limit (m_data x)) a_limit
                  ltac:(mount_field) (nothing_keeps _) _ _ _ _ _ _ _ R) as El.
    rewrite asked_sets in En. rewrite asked_sets in Ed. rewrite asked_sets in El. cbn [m_data] in En, Ed, El.
    assert (md_descr (m_data x) = no_descr) as Ed'.
    { rewrite Ed, D. clear. unfold latest. induction l; auto. }
    rewrite N in En. rewrite L in El. rewrite <- En, <- El.
    intros b k2 c2. rewrite E0. destruct x as [d' ps' ss']. cbn [m_data bare_mount] in *.
    injection E0 as Hd -> ->. rewrite mount_put_eq, Ed'. unfold no_descr.
    rewrite group_written. rewrite Hd. cbn [md_last_activity].
    apply group_fields_same. intros into k3 c3. unfold written.
    rewrite mount_put_eq. cbn [md_name md_limit md_descr put_named check_activity].
    assert (put_default_descriptives (Descr None None) into b = into) as -> by (destruct b; reflexivity).
    unfold bind, ret. same_run.
  Qed.
End Trees.
