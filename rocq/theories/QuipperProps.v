(** C73: the command quipper records what its arguments ask for. *)
From Coq Require Import String.
From Verif Require Import Base TextModel TextSpec TextProofs OptionModel OptionSpec OptionProofs OptionProps
  QuipperModel QuipperSpec QuipperProofs.
Local Open Scope N_scope.
Local Open Scope list_scope.

(** *** If quipper reports success for a recording that was asked for (from one second
    to 999999), it has run perf with just the words asked for, for just that many
    seconds, then perf inject with its words if asked for, and nothing else; both
    ended well, and what was made of the last output is in the file asked for. *)
Theorem C73_recorded gflags run tmp tmp2 content put argv w :
  asks gflags argv w ->
  let e := quipper gflags run tmp tmp2 content put argv in
  en_success e = Ok true ->
  en_commands e = commands tmp tmp2 w /\ Forall (fun c => run c = 0%Z) (en_commands e) /\
  exists r data, made_of tmp tmp2 w r /\ content r = Some data /\ en_write e = Some (w_output w, data) /\ put (w_output w) = true.
Proof.
  intros A e H. assert (E := asked gflags run tmp tmp2 content put argv w A). fold e in E.
  destruct (recording run tmp tmp2 content put w (proj2 (proj1 A))) as (_ & Hn & Hw & _ & _). rewrite <- E in *.
  destruct (en_write e) as [[o data]|] eqn:W; [|rewrite (Hn eq_refl) in H; discriminate H].
  destruct (Hw o data eq_refl) as (-> & Ec & F & _ & (r & M & Co) & S). split; [exact Ec|]. split; [exact F|].
  exists r, data. repeat split; try assumption. rewrite S in H. now injection H.
Qed.
Print Assumptions C73_recorded.

(** *** It does report success if the wish can be met, the commands end well, their
    output can be read and the file can be written. *)
Theorem C73_complete gflags run tmp tmp2 content put argv w :
  asks gflags argv w -> can_be_met w ->
  Forall (fun c => run c = 0%Z) (commands tmp tmp2 w) ->
  (forall r, made_of tmp tmp2 w r -> content r <> None) -> put (w_output w) = true ->
  en_success (quipper gflags run tmp tmp2 content put argv) = Ok true.
Proof.
  intros A M F C P. rewrite (asked gflags run tmp tmp2 content put argv w A).
  destruct (recording run tmp tmp2 content put w (proj2 (proj1 A))) as (_ & _ & Hw & Hc & _).
  specialize (Hc M F C). destruct (en_write (record_to run tmp tmp2 content put (demand_of w))) as [[o data]|]; [|contradiction].
  destruct (Hw o data eq_refl) as (-> & _ & _ & _ & _ & S). now rewrite S, P.
Qed.
Print Assumptions C73_complete.

(** *** Whatever goes wrong, it runs no other command, perf inject only after perf has
    ended well, and the file is not touched unless all of it has ended well. *)
Theorem C73_failed gflags run tmp tmp2 content put argv w :
  asks gflags argv w ->
  let e := quipper gflags run tmp tmp2 content put argv in
  (en_commands e = [] \/ en_commands e = [perf_command tmp w] \/ en_commands e = commands tmp tmp2 w) /\
  (forall c c' l, en_commands e = c :: c' :: l -> run c = 0%Z) /\
  (forall o data, en_write e = Some (o, data) ->
     o = w_output w /\ en_commands e = commands tmp tmp2 w /\ Forall (fun c => run c = 0%Z) (en_commands e)) /\
  (en_success e = Ok true \/ en_success e = Ok false).
Proof.
  intros A e. assert (E := asked gflags run tmp tmp2 content put argv w A). fold e in E.
  destruct (recording run tmp tmp2 content put w (proj2 (proj1 A))) as (B & Hn & Hw & _ & H2). rewrite <- E in *.
  split; [exact B|]. split; [exact H2|]. split.
  - intros o data W. destruct (Hw o data W) as (-> & Ec & F & _). auto.
  - destruct (en_write e) as [[o data]|]; [|right; now apply Hn].
    destruct (Hw o data eq_refl) as (_ & _ & _ & _ & _ & ->). destruct (put o); auto.
Qed.
Print Assumptions C73_failed.

(** *** For all arguments: no command is run unless they have the old form with a
    command of perf that is accepted, or flags with a duration (as an int, see
    below) above 0, a file and words for perf; and all that is ever run is safe in
    the sense of C60. *)
Theorem C73_only_asked gflags run tmp tmp2 content put argv :
  en_commands (quipper gflags run tmp tmp2 content put argv) <> [] ->
  (exists program t args, argv = program :: t :: args /\ validate_command_line args = true) \/
  (exists f program args, gflags argv = Some (f, program :: args) /\ args <> [] /\
     (0 < to_int (fl_duration f))%Z /\ fl_output f <> [] /\ (fl_inject_args f <> [] -> fl_run_inject f = true) /\
     (fl_perf_path f = [] \/ fl_perf_path f = str "perf") /\ validate_command_line (str "perf" :: args) = true).
Proof.
  intros H. unfold quipper in H. unfold old_arguments in H.
  destruct (parse_old_arguments argv) as [args|] eqn:O.
  { left. apply old_shape in O as (V & p & t & ->). now exists p, t, args. }
  right. destruct (gflags argv) as [[f rest]|]; [|now elim H].
  unfold new_arguments in H. destruct rest as [|p [|a r]]; [now elim H|now elim H|].
  destruct (Z.leb_spec (to_int (fl_duration f)) 0) as [L|L]; [now elim H|].
  destruct (fl_output f) as [|o os] eqn:Eo; [now elim H|].
  destruct (negb (fl_run_inject f) && match fl_inject_args f with [] => false | _ => true end) eqn:Ei; [now elim H|].
  exists f, p, (a :: r). split; [reflexivity|]. split; [discriminate|]. split; [exact L|]. split; [now rewrite Eo|]. split.
  { intros N. destruct (fl_run_inject f); [reflexivity|]. destruct (fl_inject_args f); [now elim N|discriminate Ei]. }
  unfold record_to, record_perf in H. cbn [de_perf] in H.
  destruct (validate_command_line (match fl_perf_path f with [] => str "perf" | x => x end :: a :: r)) eqn:V; [|now elim H].
  assert (P : match fl_perf_path f with [] => str "perf" | x => x end = str "perf").
  { apply validate_perf in V as (q & V). now injection V. }
  split; [|now rewrite P in V]. destruct (fl_perf_path f); [now left|now right].
Qed.
Print Assumptions C73_only_asked.

Lemma perf_attached l : none_attached l -> none_attached (str "perf" :: l).
Proof. intros H sub a v [<-|I] B; [discriminate B|now apply (H sub a v)]. Qed.
Lemma tail_attached x l : none_attached (x :: l) -> none_attached l.
Proof. intros H sub a v I B. apply (H sub a v); [now right|exact B]. Qed.

Theorem C73_safe takes gflags run tmp tmp2 content put argv c :
  takes_as_listed takes -> none_attached argv ->
  (forall f rest, gflags argv = Some (f, rest) ->
     none_attached rest /\ none_attached (split_string (fl_inject_args f) 59)) ->
  In c (en_commands (quipper gflags run tmp tmp2 content put argv)) ->
  exists seconds, safe_command takes [str "/usr/bin/perf"] (time_text seconds) tmp None c \/
                  safe_command takes [str "/usr/bin/perf"] (time_text 0) tmp2 (Some tmp) c.
Proof.
  intros Tk Na Nf I.
  assert (K : forall d, (validate_command_line (de_perf d) = true -> none_attached (de_perf d) /\ none_attached (de_inject d)) ->
    In c (en_commands (record_to run tmp tmp2 content put d)) ->
    exists seconds, safe_command takes [str "/usr/bin/perf"] (time_text seconds) tmp None c \/
                    safe_command takes [str "/usr/bin/perf"] (time_text 0) tmp2 (Some tmp) c).
  { clear I. intros d Nd I. exists (de_duration d). unfold record_to in I.
    destruct (validate_command_line (de_perf d)) eqn:V.
    2:{ unfold record_perf in I. rewrite V in I. destruct I. }
    destruct (Nd eq_refl) as [N1 N2].
    destruct (record_perf [str "/usr/bin/perf"] run (time_text (de_duration d)) (time_text 0) tmp tmp2 (de_perf d) (de_inject d))
      as [cmds res] eqn:R.
    destruct (C60_commands takes _ run _ _ tmp tmp2 _ _ cmds res Tk N1 N2 R) as (_ & _ & C).
    assert (I' : In c cmds) by (destruct res as [x| | | |]; try exact I; destruct (content x); exact I).
    destruct C as [-> |[(x & -> & S)|(x & y & -> & S & S' & _)]]; [destruct I'|destruct I' as [<-|[]]; now left|].
    destruct I' as [<-|[<-|[]]]; [now left|now right]. }
  unfold quipper in I. unfold old_arguments in I. destruct (parse_old_arguments argv) as [args|] eqn:O.
  - apply (K _) in I; [exact I|]. intros _. cbn [de_perf de_inject]. apply old_shape in O as (_ & p & t & ->).
    split; [now apply tail_attached, tail_attached in Na|]. intros sub a v [].
  - destruct (gflags argv) as [[f rest]|]; [|destruct I]. destruct (Nf f rest eq_refl) as [N1 N2].
    destruct (new_arguments f rest) as [d|] eqn:Ea; [|destruct I]. apply (K d) in I; [exact I|]. intros V.
    unfold new_arguments in Ea. destruct rest as [|p [|a r]]; try discriminate Ea.
    destruct (to_int (fl_duration f) <=? 0)%Z; [discriminate Ea|]. destruct (fl_output f); [discriminate Ea|].
    destruct (negb (fl_run_inject f) && match fl_inject_args f with [] => false | _ => true end); [discriminate Ea|].
    injection Ea as <-. cbn [de_perf de_inject] in *.
    assert (P : match fl_perf_path f with [] => str "perf" | x => x end = str "perf").
    { apply validate_perf in V as (q & V). now injection V. }
    rewrite P. split; [apply perf_attached; now apply tail_attached in N1|].
    destruct (fl_run_inject f); [now apply perf_attached|intros sub x v []].
Qed.
Print Assumptions C73_safe.

(** *** Concrete cases *)
Definition some_flags : flags :=
  {| fl_duration := 30; fl_perf_path := []; fl_output := str "/tmp/out"; fl_run_inject := true;
     fl_inject_args := str "inject;--itrace=i;-b" |}.
Definition some_argv : words :=
  [str "quipper"; str "--duration=30"; str "--output_file=/tmp/out"; str "--run_inject"; str "--inject_args=inject;--itrace=i;-b";
   str "--"; str "record"; str "-a"; str "-e"; str "cs_etm//"].
Definition some_gflags (argv : words) : option (flags * words) := Some (some_flags, str "quipper" :: skipn 6 argv).
Definition some_wish : wish :=
  {| w_seconds := 30; w_perf := [str "record"; str "-a"; str "-e"; str "cs_etm//"];
     w_inject := Some [str "inject"; str "--itrace=i"; str "-b"]; w_output := str "/tmp/out" |}.
Definition old_argv : words := [str "quipper"; str "10"; str "perf"; str "stat"; str "-a"; str "-e"; str "cycles"].
Definition old_wish : wish :=
  {| w_seconds := 10; w_perf := [str "stat"; str "-a"; str "-e"; str "cycles"]; w_inject := None; w_output := str "/dev/stdout" |}.
Example C73_hypotheses_met :
  asks some_gflags some_argv some_wish /\ can_be_met some_wish /\
  asks some_gflags old_argv old_wish /\ can_be_met old_wish /\
  en_commands (quipper some_gflags (fun _ => 0%Z) (str "/tmp/a") (str "/tmp/b") (fun _ => Some [1]) (fun _ => true) some_argv) =
    [[str "/usr/bin/perf"; str "record"; str "-a"; str "-e"; str "cs_etm//"; str "-o"; str "/tmp/a"; str "--"; str "sleep"; str "30"];
     [str "/usr/bin/perf"; str "inject"; str "--itrace=i"; str "-b"; str "-o"; str "/tmp/b"; str "-f"; str "-i"; str "/tmp/a"]] /\
  en_commands (quipper some_gflags (fun _ => 0%Z) (str "/tmp/a") (str "/tmp/b") (fun _ => Some [1]) (fun _ => true) old_argv) =
    [[str "/usr/bin/perf"; str "stat"; str "-a"; str "-e"; str "cycles"; str "-o"; str "/tmp/a"; str "-v"; str "--"; str "sleep"; str "10"]].
Proof.
  split; [|split; [|split; [|split; [|split; vm_compute; reflexivity]]]].
  - split; [cbn; lia|right]. split; [vm_compute; discriminate|]. split; [discriminate|].
    exists some_flags, (str "quipper"). split; [vm_compute; reflexivity|]. split; [reflexivity|]. split; [now left|].
    split; [reflexivity|]. split; [discriminate|]. cbn [w_inject some_wish]. split; [reflexivity|].
    split; [vm_compute; reflexivity|]. repeat constructor; try discriminate; vm_compute; intuition discriminate.
  - split; [vm_compute; reflexivity|]. split; [exists (str "record"); eexists; split; [reflexivity|now left]|].
    cbn [w_inject some_wish]. split; [vm_compute; reflexivity|eexists; reflexivity].
  - split; [cbn; lia|left]. exists (str "quipper"). split; [vm_compute; reflexivity|]. split; [vm_compute; reflexivity|]. split; reflexivity.
  - split; [vm_compute; reflexivity|]. split; [exists (str "stat"); eexists; split; [reflexivity|now (right; left)]|].
    cbn [w_inject old_wish]. vm_compute. discriminate.
Qed.

(** *** The duration of the flag is an int64 but kept in an int: for 4294967297 seconds
    perf is run for one. The duration is written with six digits: for 1234567 seconds
    it is run for 1234570. *)
Definition with_flags (f : flags) (args : words) : ended :=
  quipper (fun _ => Some (f, str "quipper" :: args)) (fun _ => 0%Z) (str "/tmp/a") (str "/tmp/b") (fun _ => Some [1]) (fun _ => true)
    (str "quipper" :: str "--flags" :: args).
Definition for_seconds (d : Z) : flags :=
  {| fl_duration := d; fl_perf_path := []; fl_output := str "/tmp/out"; fl_run_inject := false; fl_inject_args := [] |}.
Theorem C73_duration_refuted :
  en_commands (with_flags (for_seconds 4294967297) [str "record"; str "-a"]) =
    [[str "/usr/bin/perf"; str "record"; str "-a"; str "-o"; str "/tmp/a"; str "--"; str "sleep"; str "1"]] /\
  en_success (with_flags (for_seconds 4294967297) [str "record"; str "-a"]) = Ok true /\
  en_commands (with_flags (for_seconds 1234567) [str "record"; str "-a"]) =
    [[str "/usr/bin/perf"; str "record"; str "-a"; str "-o"; str "/tmp/a"; str "--"; str "sleep"; str "1.23457e+06"]].
Proof. split; [vm_compute; reflexivity|]. split; vm_compute; reflexivity. Qed.
Print Assumptions C73_duration_refuted.

(** *** In the old form any word will do for the duration, also none that is a number,
    a part of a number or a flag: the recording is then of 0 or 1 seconds, and it is
    a success. With a flag in front of a command of perf, the flag is not read. *)
Theorem C73_old_duration_refuted :
  let go t := quipper (fun _ => None) (fun _ => 0%Z) (str "/tmp/a") (str "/tmp/b") (fun _ => Some [1]) (fun _ => true)
                [str "quipper"; t; str "perf"; str "record"; str "-a"] in
  let lasts t := [[str "/usr/bin/perf"; str "record"; str "-a"; str "-o"; str "/tmp/a"; str "--"; str "sleep"; t]] in
  (en_commands (go (str "ten")) = lasts (str "0") /\ en_success (go (str "ten")) = Ok true) /\
  (en_commands (go (str "1.5")) = lasts (str "1") /\ en_success (go (str "1.5")) = Ok true) /\
  (en_commands (go (str "--duration=60")) = lasts (str "0") /\ en_success (go (str "--duration=60")) = Ok true) /\
  (en_commands (go (str "--output_file=/tmp/x")) = lasts (str "0") /\
   en_write (go (str "--output_file=/tmp/x")) = Some (str "/dev/stdout", [1])).
Proof. cbv zeta. split; [split; vm_compute; reflexivity|]. split; [split; vm_compute; reflexivity|]. split; split; vm_compute; reflexivity. Qed.
Print Assumptions C73_old_duration_refuted.

(** *** The usage says that the arguments of perf inject are separated by hyphens and
    that the path of perf is given. With hyphens, or if perf inject will not take the
    words, the whole recording is made and then thrown away. With a path other than
    "perf" nothing is ever recorded. *)
Theorem C73_usage_refuted :
  let inject a := {| fl_duration := 60; fl_perf_path := []; fl_output := str "/tmp/out"; fl_run_inject := true; fl_inject_args := a |} in
  let path := {| fl_duration := 60; fl_perf_path := str "/usr/bin/perf"; fl_output := str "/tmp/out"; fl_run_inject := false; fl_inject_args := [] |} in
  let once := [[str "/usr/bin/perf"; str "record"; str "-a"; str "-o"; str "/tmp/a"; str "--"; str "sleep"; str "60"]] in
  let args := [str "record"; str "-a"] in
  (en_commands (with_flags (inject (str "inject-b")) args) = once /\ en_success (with_flags (inject (str "inject-b")) args) = Ok false) /\
  (en_commands (with_flags (inject []) args) = once /\ en_write (with_flags (inject []) args) = None) /\
  (en_commands (with_flags path args) = [] /\ en_success (with_flags path args) = Ok false).
Proof. cbv zeta. split; [split; vm_compute; reflexivity|]. split; split; vm_compute; reflexivity. Qed.
Print Assumptions C73_usage_refuted.
