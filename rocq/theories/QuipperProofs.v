(** Lemmas about the command quipper. *)
From Coq Require Import String.
From Verif Require Import Base TextModel TextSpec TextProofs OptionModel OptionSpec OptionProofs QuipperModel QuipperSpec.
Local Open Scope N_scope.
Local Open Scope list_scope.

Lemma string_to_int_dec n : (Z.of_N n <= int_max)%Z -> string_to_int (print_dec n) = Z.of_N n.
Proof. intros H. unfold string_to_int. rewrite strto_print_dec. now apply Z.min_l. Qed.

Lemma to_int_small z : (int_min <= z <= int_max)%Z -> to_int z = z.
Proof. unfold int_min, int_max, to_int. intros H. rewrite Z.mod_small; lia. Qed.

Lemma time_text_small n : n < 1000000 -> time_text (Z.of_N n) = print_dec n.
Proof.
  intros H. unfold time_text. destruct (Z.ltb_spec (Z.of_N n) 0); [lia|]. rewrite N2Z.id. unfold six_digits.
  now destruct (N.ltb_spec n 1000000); [|lia].
Qed.

(** What RecordPerf is called with for a wish. *)
Definition demand_of (w : wish) : demand :=
  {| de_duration := Z.of_N (w_seconds w); de_perf := str "perf" :: w_perf w;
     de_inject := match w_inject w with Some i => str "perf" :: i | None => [] end; de_output := w_output w |}.

Lemma validate_perf args : validate_command_line args = true -> exists r, args = str "perf" :: r.
Proof.
  destruct args as [|p [|s r]]; try discriminate. unfold validate_command_line.
  destruct (list_eqb p (str "perf")) eqn:E; [|discriminate]. intros _. apply list_eqb_true in E. subst. eauto.
Qed.

Lemma old_shape argv args : parse_old_arguments argv = Some args ->
  validate_command_line args = true /\ exists p t, argv = p :: t :: args.
Proof.
  unfold parse_old_arguments. destruct argv as [|p [|t [|a r]]]; try discriminate. cbv zeta. cbn [skipn].
  destruct (validate_command_line (a :: r)) eqn:V; intros E; [|discriminate E]. injection E as <-. split; [exact V|eauto].
Qed.

Lemma asked gflags run tmp tmp2 content put argv w : asks gflags argv w ->
  quipper gflags run tmp tmp2 content put argv = record_to run tmp tmp2 content put (demand_of w).
Proof.
  intros [[Lo Hi] [(p & -> & V & I & O)|(Np & Ne & f & p & G & Fd & Fp & Fo & On & Fi)]]; unfold quipper.
  - unfold old_arguments, parse_old_arguments. cbv zeta. cbn [skipn]. rewrite V. cbn [nth]. unfold demand_of. rewrite I, O.
    rewrite string_to_int_dec by (unfold int_max; lia). reflexivity.
  - assert (E : old_arguments argv = None).
    { unfold old_arguments. destruct (parse_old_arguments argv) eqn:E; [|reflexivity].
      apply old_shape in E as (V & q & t & ->). apply validate_perf in V as (r & ->). now elim Np. }
    rewrite E, G. clear E. unfold new_arguments. destruct (w_perf w) as [|s r] eqn:Ew; [contradiction|].
    assert (Ed : to_int (fl_duration f) = Z.of_N (w_seconds w)).
    { rewrite Fd. apply to_int_small. unfold int_min, int_max. lia. }
    rewrite Ed. destruct (Z.leb_spec (Z.of_N (w_seconds w)) 0); [lia|]. rewrite Fo.
    destruct (w_output w) as [|o os] eqn:Eo; [contradiction|].
    assert (Ep : match fl_perf_path f with [] => str "perf" | x => x end = str "perf").
    { destruct Fp as [-> | ->]; reflexivity. }
    rewrite Ep. clear Ep. unfold demand_of. rewrite Ew, Eo. destruct (w_inject w) as [i|].
    + destruct Fi as (Fr & Fa & Fn). rewrite Fr, Fa. cbn [negb andb]. rewrite (split_join 59 i Fn). reflexivity.
    + destruct Fi as (Fr & Fa). rewrite Fr, Fa. reflexivity.
Qed.

Lemma sleep_stat_words perf l : list_eqb perf (str "-o") = false -> stat_words (perf :: l) <> [].
Proof. intros E. cbn [stat_words]. rewrite E. destruct perf; discriminate. Qed.

Lemma stat_line l : exists c, stat_command_line (str "/usr/bin/perf" :: l) = Ok c.
Proof.
  unfold stat_command_line. assert (H := sleep_stat_words (str "/usr/bin/perf") l eq_refl).
  destruct (stat_words (str "/usr/bin/perf" :: l)); [contradiction|eauto].
Qed.

Lemma full_perf w tmp s r : w_perf w = s :: r -> list_eqb s (str "inject") = false -> w_seconds w < 1000000 ->
  full_perf_command [str "/usr/bin/perf"] (time_text (de_duration (demand_of w))) (de_perf (demand_of w)) tmp = Ok (perf_command tmp w).
Proof.
  intros E I L. unfold demand_of; cbn [de_duration de_perf]. rewrite (time_text_small _ L). unfold full_perf_command, perf_command, is_stat.
  rewrite E. cbn [tl]. rewrite I. reflexivity.
Qed.

(** What the program does once it has understood its arguments. *)
Definition begun (tmp tmp2 : list N) (w : wish) (l : list words) : Prop :=
  l = [] \/ l = [perf_command tmp w] \/ l = commands tmp tmp2 w.
Lemma recording run tmp tmp2 content put w : w_seconds w < 1000000 ->
  let e := record_to run tmp tmp2 content put (demand_of w) in
  begun tmp tmp2 w (en_commands e) /\
  (en_write e = None -> en_success e = Ok false) /\
  (forall o data, en_write e = Some (o, data) ->
     o = w_output w /\ en_commands e = commands tmp tmp2 w /\ Forall (fun c => run c = 0%Z) (en_commands e) /\
     can_be_met w /\ (exists r, made_of tmp tmp2 w r /\ content r = Some data) /\ en_success e = Ok (put o)) /\
  (can_be_met w -> Forall (fun c => run c = 0%Z) (commands tmp tmp2 w) ->
     (forall r, made_of tmp tmp2 w r -> content r <> None) -> en_write e <> None) /\
  (forall c c' l, en_commands e = c :: c' :: l -> run c = 0%Z).
Proof.
  intros L e. unfold e, record_to. clear e. unfold record_perf.
  destruct (validate_command_line (de_perf (demand_of w))) eqn:V; cbn [negb].
  2:{ cbn [en_commands en_write en_success]. split; [now left|]. split; [reflexivity|]. split; [discriminate|].
      split; [|discriminate]. intros (V' & _). cbn [demand_of de_perf] in V. rewrite V' in V. discriminate V. }
  destruct (w_perf w) as [|s r] eqn:Ew.
  { cbn [demand_of de_perf] in V. rewrite Ew in V. discriminate V. }
  assert (Full := full_perf w tmp s r Ew). revert Full.
  assert (Ed : de_perf (demand_of w) = str "perf" :: s :: r) by (cbn [demand_of de_perf]; now rewrite Ew).
  rewrite Ed in *. set (full := perf_command tmp w). intros Full.
  destruct (negb (list_eqb s (str "record")) && negb (list_eqb s (str "stat")) && negb (list_eqb s (str "mem"))) eqn:S.
  { cbn [en_commands en_write en_success]. split; [now left|]. split; [reflexivity|]. split; [discriminate|].
    split; [|discriminate]. intros (_ & (s' & r' & E' & I') & _). rewrite Ew in E'. injection E' as <- <-.
    destruct I' as [<-|[<-|[<-|[]]]]; discriminate S. }
  assert (Sin : In s [str "record"; str "stat"; str "mem"]).
  { destruct (list_eqb s (str "record")) eqn:E1; [apply list_eqb_true in E1; left; now symmetry|].
    destruct (list_eqb s (str "stat")) eqn:E2; [apply list_eqb_true in E2; right; left; now symmetry|].
    destruct (list_eqb s (str "mem")) eqn:E3; [apply list_eqb_true in E3; right; right; left; now symmetry|discriminate S]. }
  assert (Ni : list_eqb s (str "inject") = false) by (destruct Sin as [<-|[<-|[<-|[]]]]; reflexivity).
  specialize (Full Ni L).
  assert (Etm : is_recording_etm (str "perf" :: s :: r) = is_recording_etm (w_perf w)) by (rewrite Ew; reflexivity).
  rewrite Etm.
  destruct (w_inject w) as [i|] eqn:Ei.
  - assert (Ej : de_inject (demand_of w) = str "perf" :: i) by (cbn [demand_of de_inject]; now rewrite Ei).
    rewrite Ej. rewrite andb_false_r. rewrite Full.
    assert (Ec : commands tmp tmp2 w = [full; inject_command tmp tmp2 i]) by (unfold commands; rewrite Ei; reflexivity).
    destruct (Z.eqb_spec (run full) 0) as [R|R]; cbn [negb].
    2:{ cbn [en_commands en_write en_success]. split; [now (right; left)|]. split; [reflexivity|]. split; [discriminate|].
        split; [|discriminate]. intros _ F. rewrite Ec in F. inversion F; subst. contradiction. }
    destruct (validate_command_line (str "perf" :: i)) eqn:Vi; cbn [negb].
    2:{ cbn [en_commands en_write en_success]. split; [now (right; left)|]. split; [reflexivity|]. split; [discriminate|].
        split; [|discriminate]. intros (_ & _ & M). rewrite Ei in M. destruct M as [M _]. rewrite M in Vi. discriminate Vi. }
    destruct i as [|is ir]; [discriminate Vi|].
    destruct (list_eqb is (str "inject")) eqn:Is; cbn [negb].
    2:{ cbn [en_commands en_write en_success]. split; [now (right; left)|]. split; [reflexivity|]. split; [discriminate|].
        split; [|discriminate]. intros (_ & _ & M). rewrite Ei in M. destruct M as [_ (q & M)]. injection M as -> ->. discriminate Is. }
    apply list_eqb_true in Is. subst is.
    assert (Fi : full_perf_command [str "/usr/bin/perf"] (time_text 0) (str "perf" :: str "inject" :: ir) tmp2 =
                 Ok ([str "/usr/bin/perf"] ++ (str "inject" :: ir) ++ [str "-o"; tmp2; str "-f"])) by reflexivity.
    rewrite Fi. clear Fi.
    assert (Fc : ([str "/usr/bin/perf"] ++ (str "inject" :: ir) ++ [str "-o"; tmp2; str "-f"]) ++ [str "-i"; tmp] =
                 inject_command tmp tmp2 (str "inject" :: ir)).
    { unfold inject_command. rewrite <- !app_assoc. reflexivity. }
    rewrite Fc. clear Fc. set (inj := inject_command tmp tmp2 (str "inject" :: ir)) in *.
    destruct (Z.eqb_spec (run inj) 0) as [Ri|Ri]; cbn [negb].
    2:{ cbn [en_commands en_write en_success]. split; [right; right; now rewrite Ec|]. split; [reflexivity|]. split; [discriminate|].
        split; [|intros c c' l E; injection E as <- <- <-; exact R].
        intros _ F. rewrite Ec in F. inversion F as [|? ? _ F']; subst. inversion F'; subst. contradiction. }
    destruct (content (RecordedData tmp2)) as [data|] eqn:Co; cbn [en_commands en_write en_success].
    + split; [right; right; now rewrite Ec|]. split; [discriminate|].
      split; [|split; [intros _ _ _; discriminate|intros c c' l E; injection E as <- <- <-; exact R]].
      intros o d E. injection E as <- <-. split; [reflexivity|]. split; [now rewrite Ec|].
      split; [repeat constructor; assumption|]. split.
      { split; [rewrite Ew; exact V|]. split; [exists s, r; split; [exact Ew|exact Sin]|]. rewrite Ei. split; [exact Vi|eauto]. }
      split; [|reflexivity]. exists (RecordedData tmp2). split; [unfold made_of; now rewrite Ei|exact Co].
    + split; [right; right; now rewrite Ec|]. split; [reflexivity|]. split; [discriminate|].
      split; [|intros c c' l E; injection E as <- <- <-; exact R].
      intros _ _ M. elim (M (RecordedData tmp2)); [unfold made_of; now rewrite Ei|exact Co].
  - assert (Ej : de_inject (demand_of w) = []) by (cbn [demand_of de_inject]; now rewrite Ei).
    rewrite Ej. rewrite andb_true_r.
    assert (Ec : commands tmp tmp2 w = [full]) by (unfold commands; rewrite Ei; reflexivity).
    destruct (list_eqb s (str "record") && is_recording_etm (w_perf w)) eqn:Et.
    { cbn [en_commands en_write en_success]. split; [now left|]. split; [reflexivity|]. split; [discriminate|].
      split; [|discriminate]. intros (_ & _ & M). rewrite Ei in M. apply andb_prop in Et as [E1 E2].
      apply list_eqb_true in E1. subst s. rewrite Ew in M at 1. rewrite (M eq_refl) in E2. discriminate E2. }
    rewrite Full. destruct (Z.eqb_spec (run full) 0) as [R|R]; cbn [negb].
    2:{ cbn [en_commands en_write en_success]. split; [now (right; left)|]. split; [reflexivity|]. split; [discriminate|].
        split; [|discriminate]. intros _ F. rewrite Ec in F. inversion F; subst. contradiction. }
    assert (Cm : can_be_met w).
    { split; [rewrite Ew; exact V|]. split; [exists s, r; split; [exact Ew|exact Sin]|]. rewrite Ei. intros E0.
      rewrite Ew in E0. injection E0 as ->. rewrite Ew in *. exact Et. }
    assert (K : exists res, made_of tmp tmp2 w res /\
      (if list_eqb s (str "record") || list_eqb s (str "mem") then ([full], Ok (RecordedData tmp))
       else ([full], let! c := stat_command_line full in Ok (StatOutput tmp c))) = ([full], Ok res)).
    { unfold made_of, is_stat. rewrite Ei, Ew. destruct Sin as [<-|[<-|[<-|[]]]]; [now exists (RecordedData tmp)| |now exists (RecordedData tmp)].
      destruct (stat_line ((str "stat" :: r) ++ [str "-o"; tmp] ++ [str "-v"] ++ [str "--"; str "sleep"; print_dec (w_seconds w)])) as [c Hc].
      exists (StatOutput tmp c). split; [exists c; reflexivity|].
      assert (Ef : full = str "/usr/bin/perf" :: (str "stat" :: r) ++ [str "-o"; tmp] ++ [str "-v"] ++ [str "--"; str "sleep"; print_dec (w_seconds w)]).
      { unfold full, perf_command, is_stat. rewrite Ew. reflexivity. }
      rewrite Ef, Hc. reflexivity. }
    destruct K as (res & Ma & K). unfold words in K. rewrite K. clear K.
    destruct (content res) as [data|] eqn:Co; cbn [en_commands en_write en_success].
    + split; [right; right; now rewrite Ec|]. split; [discriminate|].
      split; [|split; [intros _ _ _; discriminate|discriminate]].
      intros o d E. injection E as <- <-. split; [reflexivity|]. split; [now rewrite Ec|].
      split; [repeat constructor; assumption|]. split; [exact Cm|]. split; [|reflexivity]. now exists res.
    + split; [right; right; now rewrite Ec|]. split; [reflexivity|]. split; [discriminate|]. split; [|discriminate].
      intros _ _ M. elim (M res Ma). exact Co.
Qed.
