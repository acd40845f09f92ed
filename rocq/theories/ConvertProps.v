(** C74: the command perf_converter. *)
From Coq Require Import String.
From Verif Require Import Base TextModel TextProofs OptionProofs ToolModel ConvertModel ConvertSpec.
Local Open Scope N_scope.
Local Open Scope list_scope.

Lemma list_eqb_eq a b : list_eqb a b = true <-> a = b.
Proof. split; [apply list_eqb_true|intros ->; induction b as [|c b IH]; [reflexivity|cbn [list_eqb]; now rewrite N.eqb_refl]]. Qed.

Lemma at_dot_some s a b : at_dot s = Some (a, b) -> s = a ++ 46 :: b.
Proof.
  revert a; induction s as [|c s IH]; intros a; [discriminate|]. cbn [at_dot]. destruct (N.eqb_spec c 46) as [->|].
  - intros E. injection E as <- <-. reflexivity.
  - destruct (at_dot s) as [[x y]|]; [|discriminate]. intros E. injection E as <- <-. cbn [app]. now rewrite (IH x eq_refl).
Qed.

(** *** The formats that can be read are those of the table, with the options there;
    no other text is taken for a format. *)
Theorem C74_formats format b options :
  In (format, (b, options)) input_formats <-> format_options format = (base_name b, options) .
Proof.
  split.
  - intros I. cbn [input_formats flat_map app In] in I.
    repeat (destruct I as [E|I]; [injection E as <- <- <-; vm_compute; reflexivity|]). destruct I.
  - intros H. unfold format_options in H. destruct (at_dot format) as [[a opt]|] eqn:D.
    + apply at_dot_some in D. subst format.
      destruct (list_eqb opt (str "remap")) eqn:E1; [apply list_eqb_eq in E1; subst; injection H as -> <-; destruct b; cbn; intuition|].
      destruct (list_eqb opt (str "discard")) eqn:E2; [apply list_eqb_eq in E2; subst; injection H as -> <-; destruct b; cbn; intuition|].
      destruct (list_eqb opt (str "remap.discard")) eqn:E3; [apply list_eqb_eq in E3; subst; injection H as -> <-; destruct b; cbn; intuition|].
      destruct (list_eqb opt (str "no_combine")) eqn:E4; [apply list_eqb_eq in E4; subst; injection H as -> <-; destruct b; cbn; intuition|].
      injection H as H _. destruct b; discriminate H.
    + injection H as -> <-. destruct b; cbn; intuition.
Qed.
Print Assumptions C74_formats.

Section Convert.
Variable recording : Type.
Variables (read of_text of_proto : list N -> outcome recording).
Variables (parse : parser_options -> recording -> outcome recording).
Variables (write to_text to_proto : recording -> outcome (list N)).
Notation convert_file := (convert_file recording read of_text of_proto parse write to_text to_proto).
Notation conversion := (conversion recording read of_text of_proto parse write to_text to_proto).
Notation make := (fun f i o => let! (r, options) := read_input recording read of_text of_proto f i in
                               make_output recording parse write to_text to_proto o options r).

Lemma base_cases s :
  (exists b, s = base_name b) \/
  (list_eqb s (str "perf") = false /\ list_eqb s (str "text") = false /\ list_eqb s (str "proto") = false).
Proof.
  destruct (list_eqb s (str "perf")) eqn:E1; [apply list_eqb_eq in E1; left; now exists Perf|].
  destruct (list_eqb s (str "text")) eqn:E2; [apply list_eqb_eq in E2; left; now exists Text|].
  destruct (list_eqb s (str "proto")) eqn:E3; [apply list_eqb_eq in E3; left; now exists Proto|]. now right.
Qed.

Lemma read_base f i b options : format_options (ff_format i) = (base_name b, options) ->
  read_input recording read of_text of_proto f i =
  (let! data := open_file f (ff_file i) in let! r := load recording read of_text of_proto b data in Ok (r, options)).
Proof. intros E. unfold read_input. rewrite E. destruct b; reflexivity. Qed.

Lemma make_base o b options r : ff_format o = base_name b ->
  make_output recording parse write to_text to_proto o options r =
  (let! r := parse options r in save recording write to_text to_proto b r).
Proof. intros E. unfold make_output. rewrite E. destruct b; reflexivity. Qed.

Lemma made f i o out : make f i o = Ok out <-> conversion f i o out.
Proof.
  split.
  - intros H. destruct (format_options (ff_format i)) as [nm options] eqn:Ef.
    destruct (base_cases nm) as [(b & ->)|(E1 & E2 & E3)].
    2:{ unfold read_input in H. rewrite Ef, E1, E2, E3 in H. discriminate H. }
    cbv beta in H. rewrite (read_base f i b options Ef) in H. unfold open_file in H.
    destruct (fl_data f (ff_file i)) as [data|] eqn:Ed; [|discriminate H].
    destruct (fl_readable f (ff_file i)) eqn:Er; [|discriminate H]. cbn [obind] in H.
    destruct (load recording read of_text of_proto b data) as [r| | | |] eqn:El; try discriminate H. cbn [obind] in H.
    destruct (base_cases (ff_format o)) as [(b' & Eb)|(E1 & E2 & E3)].
    2:{ unfold make_output in H. destruct (parse options r); try discriminate H. cbn [obind] in H. rewrite E1, E2, E3 in H. discriminate H. }
    rewrite (make_base o b' options r Eb) in H. destruct (parse options r) as [r'| | | |] eqn:Ep; try discriminate H. cbn [obind] in H.
    exists b, options, b', data, r, r'. split; [now apply C74_formats|]. repeat (split; [assumption|]). exact H.
  - intros (b & options & b' & data & r & r' & I & Eb & Ed & Er & El & Ep & Es). apply C74_formats in I.
    cbv beta. rewrite (read_base f i b options I). unfold open_file. rewrite Ed, Er. cbn [obind]. rewrite El. cbn [obind].
    rewrite (make_base o b' options r Eb), Ep. exact Es.
Qed.

(** *** If the input can be converted and the output file has room, then the output
    file is the conversion, all other files are as before, and success is reported. *)
Theorem C74_converted f i o out :
  conversion f i o out -> fl_writable f (ff_file o) = true -> (List.length out <= fl_room f)%nat ->
  exists f', convert_file f i o = (Ok true, f') /\ fl_data f' (ff_file o) = Some out /\
             (forall p, p <> ff_file o -> fl_data f' p = fl_data f p).
Proof.
  intros C W R. apply made in C. unfold ConvertModel.convert_file. rewrite C. unfold buffer_to_file. rewrite W. cbn [negb].
  destruct (N.ltb_spec (N.of_nat (fl_room f)) (N.of_nat (List.length out) - N.of_nat (List.length out) mod block_size)); [lia|].
  eexists. split; [reflexivity|]. unfold write_file, put. cbn [fl_data]. rewrite firstn_all2 by exact R. split.
  - now rewrite (proj2 (list_eqb_eq _ _) eq_refl).
  - intros p Np. destruct (list_eqb p (ff_file o)) eqn:E; [|reflexivity]. apply list_eqb_eq in E. contradiction.
Qed.

(** *** Success is reported only for such a conversion. The output is then complete but
    for less than a block, and complete if it fits. *)
Theorem C74_success f i o f' :
  convert_file f i o = (Ok true, f') ->
  exists out, conversion f i o out /\ fl_data f' (ff_file o) = Some (firstn (fl_room f) out) /\
    (List.length out < fl_room f + 4096)%nat /\
    (forall p, p <> ff_file o -> fl_data f' p = fl_data f p).
Proof.
  intros H. unfold ConvertModel.convert_file in H. destruct (make f i o) as [out| | | |] eqn:M; try discriminate H.
  unfold buffer_to_file in H. destruct (fl_writable f (ff_file o)); cbn [negb] in H; [|discriminate H].
  destruct (N.ltb_spec (N.of_nat (fl_room f)) (N.of_nat (List.length out) - N.of_nat (List.length out) mod block_size)) as [L|L]; [discriminate H|].
  injection H as <-. exists out. split; [now apply made|]. unfold write_file, put. cbn [fl_data]. split.
  { now rewrite (proj2 (list_eqb_eq _ _) eq_refl). }
  split.
  { assert (B : N.of_nat (List.length out) mod block_size < block_size) by (apply N.mod_lt; discriminate). unfold block_size in *. lia. }
  intros p Np. destruct (list_eqb p (ff_file o)) eqn:E; [|reflexivity]. apply list_eqb_eq in E. contradiction.
Qed.

(** *** Otherwise no file is changed, unless there is a conversion that the output file
    has no room for; then the program is ended. *)
Theorem C74_failed f i o res f' :
  convert_file f i o = (res, f') -> res <> Ok true ->
  f' = f \/
  (res = Abort /\ exists out, conversion f i o out /\ (fl_room f < List.length out)%nat /\
     fl_data f' (ff_file o) = Some (firstn (fl_room f) out) /\ (forall p, p <> ff_file o -> fl_data f' p = fl_data f p)).
Proof.
  intros H Nr. unfold ConvertModel.convert_file in H.
  destruct (make f i o) as [out| | | |] eqn:M; try (injection H as <- <-; now left).
  unfold buffer_to_file in H. destruct (fl_writable f (ff_file o)); cbn [negb] in H; [|injection H as <- <-; now left].
  destruct (N.ltb_spec (N.of_nat (fl_room f)) (N.of_nat (List.length out) - N.of_nat (List.length out) mod block_size)) as [L|L];
    injection H as <- <-; [|contradiction].
  right. split; [reflexivity|]. exists out. split; [now apply made|]. split; [lia|]. unfold write_file, put. cbn [fl_data]. split.
  { now rewrite (proj2 (list_eqb_eq _ _) eq_refl). }
  intros p Np. destruct (list_eqb p (ff_file o)) eqn:E; [|reflexivity]. apply list_eqb_eq in E. contradiction.
Qed.

(** *** A format that is not in the tables is refused. *)
Theorem C74_unknown_format f i o :
  (forall b options, ~ In (ff_format i, (b, options)) input_formats) ->
  convert_file f i o = (Ok false, f).
Proof.
  intros U. unfold ConvertModel.convert_file, read_input. destruct (format_options (ff_format i)) as [nm options] eqn:Ef.
  destruct (base_cases nm) as [(b & ->)|(E1 & E2 & E3)].
  - elim (U b options). now apply C74_formats.
  - rewrite E1, E2, E3. reflexivity.
Qed.
End Convert.
Print Assumptions C74_converted.
Print Assumptions C74_success.
Print Assumptions C74_failed.
Print Assumptions C74_unknown_format.

(** *** The command line: each of the files and formats is the last one given for its
    letter, in any order and either way of writing, with the documented default. *)
Lemma read_settings l args i o : written l args ->
  take_settings (getopt options_of_converter None args) i o =
  Some ({| ff_file := setting 105 (ff_file i) l; ff_format := setting 73 (ff_format i) l |},
        {| ff_file := setting 111 (ff_file o) l; ff_format := setting 79 (ff_format o) l |}).
Proof.
  intros W. revert i o. induction W as [|c v l args I W IH|c v l args I Nv W IH|w l args Nw W IH]; intros i o.
  - destruct i, o. reflexivity.
  - cbn [In] in I. destruct I as [<-|[<-|[<-|[<-|[<-|[]]]]]]; cbn; rewrite IH; reflexivity.
  - destruct v as [|x v]; [contradiction|].
    cbn [In] in I. destruct I as [<-|[<-|[<-|[<-|[<-|[]]]]]]; cbn; rewrite IH; reflexivity.
  - destruct w as [|x [|y w]]; cbn [getopt]; try apply IH. cbn [nth_error] in Nw.
    destruct (N.eqb_spec x 45) as [->|]; [now elim Nw|]. cbn [negb]. apply IH.
Qed.
Theorem C74_arguments l args : written l args ->
  converter_arguments args =
  Some ({| ff_file := setting 105 (str "perf.data") l; ff_format := setting 73 (str "perf") l |},
        {| ff_file := setting 111 (str "/dev/stdout") l; ff_format := setting 79 (str "text") l |}).
Proof. apply read_settings. Qed.
Print Assumptions C74_arguments.
(** An option that is not known ends the program before anything is read or written. *)
Theorem C74_unknown_option recording read of_text of_proto parse write to_text to_proto f l args c cs rest :
  written l args -> ~ In c [105; 73; 111; 79; 118; 45] ->
  perf_converter recording read of_text of_proto parse write to_text to_proto f (args ++ (45 :: c :: cs) :: rest) = (Ok false, f).
Proof.
  intros W Nc. unfold perf_converter, converter_arguments.
  assert (K : forall i o, take_settings (getopt options_of_converter None (args ++ (45 :: c :: cs) :: rest)) i o = None).
  { induction W as [|k v l args I W IH|k v l args I Nv W IH|w l args Nw W IH]; intros i o.
    - cbn [app getopt]. rewrite N.eqb_refl. cbn [negb].
      assert (E : list_eqb (c :: cs) [45] = false).
      { cbn [list_eqb]. destruct (N.eqb_spec c 45) as [->|]; [elim Nc; cbn; tauto|reflexivity]. }
      rewrite E. cbn [cluster].
      assert (Eo : options_of_converter c = None).
      { unfold options_of_converter. cbn [In] in Nc.
        destruct (N.eqb_spec c 105); [elim Nc; auto|]. destruct (N.eqb_spec c 111); [elim Nc; auto|].
        destruct (N.eqb_spec c 73); [elim Nc; auto|]. destruct (N.eqb_spec c 79); [elim Nc; auto|].
        destruct (N.eqb_spec c 118); [elim Nc; auto 7|]. reflexivity. }
      rewrite Eo. destruct (cluster options_of_converter cs) as [os p]. reflexivity.
    - cbn [In] in I. destruct I as [<-|[<-|[<-|[<-|[<-|[]]]]]]; cbn [app]; cbn; apply IH.
    - destruct v as [|x v]; [contradiction|].
      cbn [In] in I. destruct I as [<-|[<-|[<-|[<-|[<-|[]]]]]]; cbn [app]; cbn; apply IH.
    - cbn [app]. destruct w as [|x [|y w]]; cbn [getopt]; try apply IH. cbn [nth_error] in Nw.
      destruct (N.eqb_spec x 45) as [->|]; [now elim Nw|]. cbn [negb]. apply IH. }
  now rewrite K.
Qed.
Print Assumptions C74_unknown_option.

(** *** A concrete case: recordings are lists of numbers, perf.data is the numbers, the
    other formats have a mark in front; remapping adds 1. *)
Definition marked (m : N) (data : list N) : outcome (list N) :=
  match data with c :: r => if c =? m then Ok r else Fail | [] => Fail end.
Definition remapped (o : parser_options) (r : list N) : outcome (list N) :=
  if list_eqb r [] then Fail else Ok (if po_remap o then map N.succ r else r).
Definition convert_numbers :=
  perf_converter (list N) Ok (marked 116) (marked 112) remapped Ok (fun r => Ok (116 :: r)) (fun r => Ok (112 :: r)).
Definition a_disk (room : nat) : files :=
  {| fl_data := fun p => if list_eqb p (str "a") then Some [1; 2; 3] else if list_eqb p (str "perf.data") then Some [9] else None;
     fl_readable := fun _ => true; fl_writable := fun _ => true; fl_room := room |}.
Definition an_order : list (list N) :=
  [str "-i"; str "x"; str "-Iperf.remap"; str "-o"; str "b"; str "-ia"; str "-O"; str "proto"; str "-v"; str "2"].
Example C74_hypotheses_met :
  written [(105, str "x"); (73, str "perf.remap"); (111, str "b"); (105, str "a"); (79, str "proto"); (118, str "2")] an_order /\
  conversion (list N) Ok (marked 116) (marked 112) remapped Ok (fun r => Ok (116 :: r)) (fun r => Ok (112 :: r)) (a_disk 100)
    {| ff_file := str "a"; ff_format := str "perf.remap" |} {| ff_file := str "b"; ff_format := str "proto" |} [112; 2; 3; 4] /\
  fst (convert_numbers (a_disk 100) an_order) = Ok true /\
  fl_data (snd (convert_numbers (a_disk 100) an_order)) (str "b") = Some [112; 2; 3; 4].
Proof.
  split; [|split; [|split; vm_compute; reflexivity]].
  - unfold an_order. change (str "-i") with [45; 105]. change (str "-o") with [45; 111]. change (str "-O") with [45; 79].
    change (str "-v") with [45; 118]. change (str "-Iperf.remap") with (45 :: 73 :: str "perf.remap"). change (str "-ia") with (45 :: 105 :: str "a").
    apply Written_apart; [cbn; auto|]. apply Written_joined; [cbn; auto|discriminate|]. apply Written_apart; [cbn; auto|].
    apply Written_joined; [cbn; auto|discriminate|]. apply Written_apart; [cbn; auto|]. apply Written_apart; [cbn; auto 7|]. constructor.
  - exists Perf, {| po_remap := true; po_discard := false; po_combine := true |}, Proto, [1; 2; 3], [1; 2; 3], [2; 3; 4].
    split; [cbn; auto|]. split; [reflexivity|]. split; [reflexivity|]. split; [reflexivity|]. split; [reflexivity|]. split; reflexivity.
Qed.

(** *** On a full device the end of the output, less than a block, is lost, and success
    is reported: the result of fclose is not looked at (file_utils.h:31). *)
Theorem C74_full_device_refuted :
  fst (convert_numbers (a_disk 0) an_order) = Ok true /\
  fl_data (snd (convert_numbers (a_disk 0) an_order)) (str "b") = Some [].
Proof. split; vm_compute; reflexivity. Qed.
Print Assumptions C74_full_device_refuted.

(** *** The name of a file that is not behind an option is passed over: perf.data is
    converted in its place, with success. *)
Theorem C74_operand_refuted :
  converter_arguments [str "a"; str "-O"; str "proto"; str "-o"; str "b"] = converter_arguments [str "-O"; str "proto"; str "-o"; str "b"] /\
  fl_data (snd (convert_numbers (a_disk 100) [str "a"; str "-O"; str "proto"; str "-o"; str "b"])) (str "b") = Some [112; 9] /\
  fst (convert_numbers (a_disk 100) [str "a"; str "-O"; str "proto"; str "-o"; str "b"]) = Ok true.
Proof. split; [vm_compute; reflexivity|]. split; vm_compute; reflexivity. Qed.
Print Assumptions C74_operand_refuted.

(** *** Options of the parser can be in the format of the input only, and two of them
    in one order only. *)
Theorem C74_option_place_refuted :
  fst (convert_numbers (a_disk 100) [str "-Iperf.remap.discard"; str "-Oproto"; str "-ob"]) = Ok true /\
  fst (convert_numbers (a_disk 100) [str "-Iperf.discard.remap"; str "-Oproto"; str "-ob"]) = Ok false /\
  fst (convert_numbers (a_disk 100) [str "-Iperf"; str "-Oproto.remap"; str "-ob"]) = Ok false.
Proof. split; [vm_compute; reflexivity|]. split; vm_compute; reflexivity. Qed.
Print Assumptions C74_option_place_refuted.
