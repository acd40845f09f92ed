(** C60: only allowed options reach perf. *)
From Verif Require Import Base BytesModel Assoc TextModel OptionModel OptionSpec OptionProofs.
From Coq Require Import String.
Local Open Scope N_scope.
Local Open Scope list_scope.

(** *** C60 An accepted command line has only allowed options and no command
    [takes sub o] says which options of perf take the next word; it agrees with the
    tables of the code. No value is attached with '=' to an option that takes one. *)
Theorem C60_safe takes args :
  takes_as_listed takes -> validate_command_line args = true -> none_attached args ->
  exists sub m o, firstn 2 args = [str "perf"; sub] /\ In sub [str "record"; str "mem"; str "stat"; str "inject"] /\
    perf_reads takes (tl args) = Some (mkRun sub m o []) /\
    (forall x v, In (x, v) o -> In x (map fst (allowed (options_of sub))) /\ ~ In x (banned (options_of sub))) /\
    (forall x v, In (x, v) m -> In x (map fst (allowed (str "mem")))) /\
    (forall x v, In (x, v) o -> takes (options_of sub) x = true -> v <> None).
Proof.
  intros Tk V NA. apply validate_accepted in V.
  destruct (perf_reads_accepted takes args [] Tk V NA) as (sub & m & o & S & R & F1 & F2).
  exists sub, m, o. rewrite app_nil_r in R. cbn [reads fst snd] in R. rewrite app_nil_r in R.
  rewrite Forall_forall in F1, F2.
  assert (E : firstn 2 args = [str "perf"; sub] /\ In sub [str "record"; str "mem"; str "stat"; str "inject"]).
  { inversion V as [s r C V1 E|a b V1 V2 E]; subst args; cbn [nth_error] in S; injection S as <-; (split; [reflexivity|]).
    - destruct C as [->|[->| ->]]; [now left|now (right; right; left)|now (right; right; right; left)].
    - right. now left. }
  destruct E as [E1 E2]. split; [exact E1|]. split; [exact E2|]. split; [exact R|]. split; [|split].
  - intros x v I. destruct (F1 _ I) as [A _]. split; [exact A|]. now apply allowed_not_banned.
  - intros x v I. apply (F2 _ I).
  - intros x v I. apply (F1 _ I).
Qed.
Print Assumptions C60_safe.

(** *** C60 Nothing safe is refused
    Options of one of the plain subcommands, written without '='. *)
Theorem C60_complete takes sub args o :
  takes_as_listed takes -> In sub [str "record"; str "stat"; str "inject"] ->
  perf_reads takes (sub :: args) = Some (mkRun sub [] o []) -> ~ In (str "--") args ->
  (forall a, In a args -> behind_eq a = None) ->
  (forall x v, In (x, v) o -> In x (map fst (allowed sub)) /\ (takes sub x = true -> v <> None)) ->
  validate_command_line (str "perf" :: sub :: args) = true.
Proof.
  intros Tk S R D B F.
  assert (M : list_eqb sub (str "mem") = false) by (destruct S as [<-|[<-|[<-|[]]]]; reflexivity).
  unfold perf_reads in R. rewrite M in R. destruct (reads (takes sub) args) as [o' c'] eqn:Ra. injection R as -> ->.
  assert (V : validate_options (allowed sub) args = true).
  { apply (validate_complete _ (takes sub) (List.length args) args o (tables_ok sub)); auto.
    - apply tables_listed. apply (tl_allowed _ Tk).
    - apply Forall_forall. intros [x v] I. exact (F x v I). }
  destruct S as [<-|[<-|[<-|[]]]]; exact V.
Qed.
Print Assumptions C60_complete.

(** *** C60 The commands that are run
    Whatever the arguments, the files and the exit statuses: each command that is
    run is the trusted program with allowed options, the temporary file as output,
    and sleep as the command perf runs. *)
Definition safe_command takes (binary : words) (time out : list N) (input : option (list N)) (c : words) : Prop :=
  exists sub m o rest, c = binary ++ rest /\
    perf_reads takes rest = Some (mkRun sub m (o ++ own_options sub out input) (workload time input)) /\
    (forall x v, In (x, v) o -> In x (map fst (allowed (options_of sub))) /\ ~ In x (banned (options_of sub))) /\
    (forall x v, In (x, v) m -> In x (map fst (allowed (str "mem")))) /\
    (if input then sub = str "inject" else In sub [str "record"; str "mem"; str "stat"]).

Lemma full_is_safe takes binary time args out c :
  takes_as_listed takes -> validate_command_line args = true -> none_attached args ->
  full_perf_command binary time args out = Ok c ->
  (forall i, nth_error args 1 = Some (str "inject") -> safe_command takes binary time out (Some i) (c ++ [str "-i"; i])) /\
  (nth_error args 1 <> Some (str "inject") -> safe_command takes binary time out None c).
Proof.
  intros Tk V NA H. assert (A := validate_accepted _ V).
  assert (Tl : exists p s r, args = p :: s :: r) by (inversion A; eauto).
  destruct Tl as (p & s & r & ->). cbn [full_perf_command] in H. injection H as <-. cbn [nth_error]. split.
  - intros i Es. injection Es as ->.
    destruct (perf_reads_accepted takes _ ([str "-o"; out] ++ [str "-f"] ++ [str "-i"; i]) Tk A NA)
      as (sub & m & o & S & R & F1 & F2). cbn [nth_error] in S. injection S as <-.
    exists (str "inject"), m, o, (tl (p :: str "inject" :: r) ++ [str "-o"; out] ++ [str "-f"] ++ [str "-i"; i]).
    split; [rewrite <- app_assoc; f_equal; cbn [tl app]; rewrite <- app_assoc; reflexivity|].
    rewrite Forall_forall in F1, F2. split; [|split; [|split; [|reflexivity]]].
    + rewrite R. f_equal. f_equal; cbn [app].
      * cbn [reads]. change (options_of (str "inject")) with (str "inject").
        change (list_eqb (str "-o") (str "--")) with false. change (negb (looks_like_option (str "-o"))) with false.
        change (behind_eq (str "-o")) with (@None (list N)). cbn iota. rewrite (tl_output _ Tk).
        change (list_eqb (str "-f") (str "--")) with false. change (negb (looks_like_option (str "-f"))) with false.
        change (behind_eq (str "-f")) with (@None (list N)). cbn iota. rewrite (tl_force _ Tk).
        change (list_eqb (str "-i") (str "--")) with false. change (negb (looks_like_option (str "-i"))) with false.
        change (behind_eq (str "-i")) with (@None (list N)). cbn iota. rewrite (tl_input _ Tk). reflexivity.
      * cbn [reads]. change (options_of (str "inject")) with (str "inject").
        change (list_eqb (str "-o") (str "--")) with false. change (negb (looks_like_option (str "-o"))) with false.
        change (behind_eq (str "-o")) with (@None (list N)). cbn iota. rewrite (tl_output _ Tk).
        change (list_eqb (str "-f") (str "--")) with false. change (negb (looks_like_option (str "-f"))) with false.
        change (behind_eq (str "-f")) with (@None (list N)). cbn iota. rewrite (tl_force _ Tk).
        change (list_eqb (str "-i") (str "--")) with false. change (negb (looks_like_option (str "-i"))) with false.
        change (behind_eq (str "-i")) with (@None (list N)). cbn iota. rewrite (tl_input _ Tk). reflexivity.
    + intros x v I. destruct (F1 _ I) as [X _]. split; [exact X|]. now apply allowed_not_banned.
    + intros x v I. apply (F2 _ I).
  - intros Es.
    destruct (perf_reads_accepted takes _ ([str "-o"; out] ++ (if list_eqb s (str "stat") then [str "-v"] else []) ++
                 [str "--"; str "sleep"; time]) Tk A NA)
      as (sub & m & o & S & R & F1 & F2). cbn [nth_error] in S. injection S as <-.
    assert (Cs : s = str "record" \/ s = str "mem" \/ s = str "stat").
    { inversion A as [s' r' C V1 E|a b V1 V2 E]; subst; [|now right; left].
      destruct C as [->|[->| ->]]; auto. exfalso. now apply Es. }
    assert (Ni : list_eqb s (str "inject") = false) by (destruct Cs as [->|[->| ->]]; reflexivity).
    exists s, m, o, (tl (p :: s :: r) ++ [str "-o"; out] ++ (if list_eqb s (str "stat") then [str "-v"] else []) ++
                 [str "--"; str "sleep"; time]).
    split; [now rewrite Ni|]. rewrite Forall_forall in F1, F2. split; [|split; [|split]].
    +
      assert (E : forall sw, reads (takes (options_of s)) ([str "-o"; out] ++ sw ++ [str "--"; str "sleep"; time]) =
                   ((str "-o", Some out) :: fst (reads (takes (options_of s)) (sw ++ [str "--"; str "sleep"; time])),
                    snd (reads (takes (options_of s)) (sw ++ [str "--"; str "sleep"; time])))).
      { intros sw. cbn [app]. cbn [reads]. change (list_eqb (str "-o") (str "--")) with false.
        change (negb (looks_like_option (str "-o"))) with false. change (behind_eq (str "-o")) with (@None (list N)).
        cbn iota. rewrite (tl_output _ Tk). now destruct (reads _ (sw ++ _)). }
      assert (E0 : forall t, reads t [str "--"; str "sleep"; time] = ([], [str "sleep"; time])) by reflexivity.
      rewrite R, E. f_equal. f_equal; cbn [fst snd].
      * unfold own_options. f_equal. cbn [app]. f_equal. destruct Cs as [->|[->| ->]]; try reflexivity.
        change (list_eqb (str "stat") (str "stat")) with true. cbn [app]. cbn [reads].
        change (list_eqb (str "-v") (str "--")) with false. change (negb (looks_like_option (str "-v"))) with false.
        change (behind_eq (str "-v")) with (@None (list N)). cbn iota.
        change (options_of (str "stat")) with (str "stat"). rewrite (tl_verbose _ Tk). reflexivity.
      * destruct Cs as [->|[->| ->]]; try reflexivity.
        change (list_eqb (str "stat") (str "stat")) with true. cbn [app]. cbn [reads].
        change (list_eqb (str "-v") (str "--")) with false. change (negb (looks_like_option (str "-v"))) with false.
        change (behind_eq (str "-v")) with (@None (list N)). cbn iota.
        change (options_of (str "stat")) with (str "stat"). rewrite (tl_verbose _ Tk). reflexivity.
    + intros x v I. destruct (F1 _ I) as [X _]. split; [exact X|]. now apply allowed_not_banned.
    + intros x v I. apply (F2 _ I).
    + destruct Cs as [->|[->| ->]]; [now left|now (right; left)|now (right; right; left)].
Qed.

Theorem C60_commands takes binary run time zero out inject_out perf_args inject_args cmds res :
  takes_as_listed takes -> none_attached perf_args -> none_attached inject_args ->
  record_perf binary run time zero out inject_out perf_args inject_args = (cmds, res) ->
  (res <> UB) /\
  (cmds <> [] -> validate_command_line perf_args = true) /\
  (cmds = [] \/
   (exists c, cmds = [c] /\ safe_command takes binary time out None c) \/
   (exists c c', cmds = [c; c'] /\ safe_command takes binary time out None c /\
      safe_command takes binary zero inject_out (Some out) c' /\ run c = 0%Z /\ validate_command_line inject_args = true)).
Proof.
  intros Tk N1 N2 H. unfold record_perf in H.
  destruct (validate_command_line perf_args) eqn:V; cbn [negb] in H;
    [|injection H as <- <-; split; [discriminate|split; [easy|now left]]].
  destruct perf_args as [|p [|s r]]; try discriminate V.
  destruct (negb (list_eqb s (str "record")) && negb (list_eqb s (str "stat")) && negb (list_eqb s (str "mem"))) eqn:S;
    [injection H as <- <-; split; [discriminate|split; [easy|now left]]|].
  destruct (list_eqb s (str "record") && is_recording_etm (p :: s :: r) && match inject_args with [] => true | _ => false end);
    [injection H as <- <-; split; [discriminate|split; [easy|now left]]|].
  assert (Ns : nth_error (p :: s :: r) 1 <> Some (str "inject")).
  { cbn [nth_error]. intros E. injection E as ->. discriminate S. }
  destruct (full_perf_command binary time (p :: s :: r) out) as [full| | | |] eqn:Fu; try discriminate Fu.
  assert (Sf := proj2 (full_is_safe takes binary time _ out full Tk V N1 Fu) Ns).
  destruct (negb (run full =? 0)%Z) eqn:Ru;
    [injection H as <- <-; split; [discriminate|split; [easy|right; left; eauto]]|].
  apply negb_false_iff, Z.eqb_eq in Ru.
  destruct inject_args as [|i0 irest] eqn:Ei.
  { destruct (list_eqb s (str "record") || list_eqb s (str "mem")); injection H as <- <-;
      (split; [|split; [easy|right; left; eauto]]); [discriminate|].
    unfold stat_command_line. destruct (stat_words full); discriminate. }
  destruct (validate_command_line (i0 :: irest)) eqn:V2; cbn [negb] in H;
    [|injection H as <- <-; split; [discriminate|split; [easy|right; left; eauto]]].
  rename i0 into ip. destruct irest as [|is ir]; try discriminate V2.
  destruct (list_eqb is (str "inject")) eqn:I; cbn [negb] in H;
    [|injection H as <- <-; split; [discriminate|split; [easy|right; left; eauto]]].
  apply list_eqb_true in I. subst is.
  destruct (full_perf_command binary zero (ip :: str "inject" :: ir) inject_out) as [cmd| | | |] eqn:Fi; try discriminate Fi.
  assert (Si := proj1 (full_is_safe takes binary zero _ inject_out cmd Tk V2 N2 Fi) out eq_refl).
  destruct (negb (run (cmd ++ [str "-i"; out]) =? 0)%Z); injection H as <- <-;
    (split; [discriminate|split; [easy|right; right; do 2 eexists; split; [reflexivity|]; split; [exact Sf|]; split; [exact Si|]; split; [exact Ru|reflexivity]]]).
Qed.
Print Assumptions C60_commands.

(** *** A concrete case *)
Definition listed_takes (sub o : list N) : bool :=
  if list_eqb o (str "-o") then true
  else if list_eqb sub (str "inject") && list_eqb o (str "-i") then true
  else match aget list_eqb o (allowed sub) with Some b => b | None => false end.
Example C60_takes_met : takes_as_listed listed_takes.
Proof.
  constructor; try reflexivity. intros sub o b I.
  assert (K : forallb (fun x => Bool.eqb (listed_takes sub (fst x)) (snd x)) (allowed sub) = true).
  { unfold listed_takes. unfold allowed.
    destruct (list_eqb sub (str "record")) eqn:E1; [apply list_eqb_true in E1; subst; vm_compute; reflexivity|].
    destruct (list_eqb sub (str "mem")) eqn:E2; [apply list_eqb_true in E2; subst; vm_compute; reflexivity|].
    destruct (list_eqb sub (str "stat")) eqn:E3; [apply list_eqb_true in E3; subst; vm_compute; reflexivity|].
    destruct (list_eqb sub (str "inject")) eqn:E4; [apply list_eqb_true in E4; subst; vm_compute; reflexivity|reflexivity]. }
  rewrite forallb_forall in K. specialize (K _ I). now apply Bool.eqb_prop in K.
Qed.
Definition an_arg_list : words :=
  [str "perf"; str "record"; str "-a"; str "-e"; str "cpu/event=0x3c/"; str "-F"; str "99"; str "-g"].
Definition an_inject : words := [str "perf"; str "inject"; str "--itrace=i"; str "-b"].
Example C60_hypotheses_met :
  validate_command_line an_arg_list = true /\ none_attached an_arg_list /\ none_attached an_inject /\
  record_perf [str "/usr/bin/perf"] (fun _ => 0%Z) (str "2") (str "0") (str "/tmp/a") (str "/tmp/b") an_arg_list an_inject =
  ([[str "/usr/bin/perf"; str "record"; str "-a"; str "-e"; str "cpu/event=0x3c/"; str "-F"; str "99"; str "-g";
     str "-o"; str "/tmp/a"; str "--"; str "sleep"; str "2"];
    [str "/usr/bin/perf"; str "inject"; str "--itrace=i"; str "-b"; str "-o"; str "/tmp/b"; str "-f"; str "-i"; str "/tmp/a"]],
   Ok (RecordedData (str "/tmp/b"))).
Proof.
  assert (K : forall l, forallb (fun s => forallb (fun a => negb (attached (allowed s) a)) l)
                [str "record"; str "mem"; str "stat"; str "inject"] = true -> none_attached l).
  { intros l H sub a v I B In1. rewrite forallb_forall in H.
    assert (G : exists s, In s [str "record"; str "mem"; str "stat"; str "inject"] /\ allowed sub = allowed s).
    { destruct (list_eqb sub (str "record")) eqn:E1; [apply list_eqb_true in E1; subst; exists (str "record"); split; [now left|reflexivity]|].
      destruct (list_eqb sub (str "mem")) eqn:E2; [apply list_eqb_true in E2; subst; exists (str "mem"); split; [now (right; left)|reflexivity]|].
      destruct (list_eqb sub (str "stat")) eqn:E3; [apply list_eqb_true in E3; subst; exists (str "stat"); split; [now (right; right; left)|reflexivity]|].
      destruct (list_eqb sub (str "inject")) eqn:E4; [apply list_eqb_true in E4; subst; exists (str "inject"); split; [now (right; right; right; left)|reflexivity]|].
      unfold allowed in In1. rewrite E1, E2, E3, E4 in In1. destruct In1. }
    destruct G as (s & Is & Es). specialize (H s Is). rewrite forallb_forall in H. specialize (H a I).
    unfold attached in H. rewrite B, <- Es in H.
    rewrite (tables_listed sub (listed_takes sub) (tl_allowed _ C60_takes_met sub) (before_eq a)) in H
      by (apply (in_map fst) in In1; exact In1).
    rewrite (tl_allowed _ C60_takes_met sub _ _ In1) in H. discriminate H. }
  split; [vm_compute; reflexivity|]. split; [apply K; vm_compute; reflexivity|]. split; [apply K; vm_compute; reflexivity|].
  vm_compute. reflexivity.
Qed.

(** *** The documentation says that what is accepted is safe (perf_option_parser.h).
    An option that takes a value can carry it behind '='. The check then still
    leaves out the next argument, so it can be anything: a banned option, ... *)
Theorem C60_safe_refuted :
  let args := [str "perf"; str "stat"; str "--event=cycles"; str "--post=reboot"] in
  validate_command_line args = true /\
  forall takes, perf_reads takes (tl args) =
    Some (mkRun (str "stat") [] [(str "--event", Some (str "cycles")); (str "--post", Some (str "reboot"))] []) /\
    In (str "--post") (banned (str "stat")).
Proof.
  cbv zeta. split; [vm_compute; reflexivity|]. intros takes. split; [reflexivity|].
  do 19 right. now left.
Qed.
(** ... or a command that perf runs. *)
Theorem C60_command_refuted :
  let args := [str "perf"; str "record"; str "--event=cycles"; str "/tmp/evil"] in
  exists c, record_perf [str "/usr/bin/perf"] (fun _ => 0%Z) (str "2") (str "0") (str "/tmp/a") (str "/tmp/b") args [] =
    ([str "/usr/bin/perf" :: c], Ok (RecordedData (str "/tmp/a"))) /\
  forall takes, perf_reads takes c = Some (mkRun (str "record") [] [(str "--event", Some (str "cycles"))]
    [str "/tmp/evil"; str "-o"; str "/tmp/a"; str "--"; str "sleep"; str "2"]).
Proof. eexists. split; [vm_compute; reflexivity|]. intros takes. reflexivity. Qed.
(** Recording of ETM data without perf inject is refused if the events are given
    with -e, not if they are given with --event. *)
Theorem C60_etm_refuted :
  let go args := record_perf [str "/usr/bin/perf"] (fun _ => 0%Z) (str "2") (str "0") (str "/tmp/a") (str "/tmp/b") args [] in
  go [str "perf"; str "record"; str "-e"; str "cs_etm//"] = ([], Fail) /\
  snd (go [str "perf"; str "record"; str "--event"; str "cs_etm//"]) = Ok (RecordedData (str "/tmp/a")).
Proof. split; vm_compute; reflexivity. Qed.
(** "-o" and the next word are left out of the command line of a perf stat message,
    so with "-o" as the value of an option it has the name of the file. *)
Theorem C60_stat_command_line_refuted :
  let go args := record_perf [str "perf"] (fun _ => 0%Z) (str "2") (str "0") (str "/tmp/a") (str "/tmp/b") args [] in
  snd (go [str "perf"; str "stat"; str "-e"; str "cycles"]) =
    Ok (StatOutput (str "/tmp/a") (str "perf stat -e cycles -v -- sleep 2")) /\
  snd (go [str "perf"; str "stat"; str "-e"; str "-o"]) =
    Ok (StatOutput (str "/tmp/a") (str "perf stat -e /tmp/a -v -- sleep 2")).
Proof. split; vm_compute; reflexivity. Qed.
Definition plain_args : words := [str "-a"; str "-e"; str "cycles"; str "-F"; str "99"; str "--call-graph"; str "fp"].
Example C60_complete_met :
  perf_reads listed_takes (str "record" :: plain_args) =
    Some (mkRun (str "record") [] [(str "-a", None); (str "-e", Some (str "cycles")); (str "-F", Some (str "99"));
                                   (str "--call-graph", Some (str "fp"))] []) /\
  forallb (fun a => match behind_eq a with None => true | _ => false end) plain_args = true.
Proof. split; vm_compute; reflexivity. Qed.
