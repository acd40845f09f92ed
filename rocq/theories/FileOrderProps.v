(** Properties of reading data of the other byte order: C55. *)
From Verif Require Import Base BytesModel EventSizeModel ReaderOpsModel FileModel FileSpec FileExamples
  FileProofs FileEventProofs FileOrderProofs FileReadProofs FileMetaProofs FileMainProofs FileProps.
Local Open Scope N_scope.

(** ** C55: the numbers of an event do not depend on the byte order of the data *)

(** Every event of data read with success is a record of the data. Each of its
    numbers (type, misc and size of the header, the members of the structure of its
    type and of the entries behind it) has the value the number at that place has in
    the byte order of the data, and all other bytes are those of the data. In data
    of the other byte order, ksymbol events (type 17) are excepted. *)
Theorem C55_events (cf : fconfig) (b : list N) (s : fstate) :
  bytes_ok b = true -> len b < two63 -> read_perf_data cf b = Ok s ->
  exists sw, slice b 0 8 = magic_bytes sw /\
    forall ev, In ev (fs_events s) ->
    let e := fe_raw ev in
    exists o, o + len e <= len b /\ len e = h_size (header_at sw b o) /\
      (sw = false -> slice b o (len e) = e) /\
      (sw = true -> h_type (header_at sw b o) <> 17 ->
        (forall p n, In (p, n) (all_members e) ->
           p + N.of_nat n <= len e /\ int_at true b (o + p) n = int_at false e p n) /\
        (forall p n, p + n <= len e ->
           Forall (fun m => fst m + N.of_nat (snd m) <= p \/ p + n <= fst m) (all_members e) ->
           slice b (o + p) n = slice e p n)).
Proof.
  intros B L E. destruct (C39_read cf b s B L E) as [sw H]. exists sw.
  assert (X : forall ev, In ev (fs_events s) -> exists o, o + len (fe_raw ev) <= len b /\ event_of sw b o (fe_raw ev)).
  { assert (R : forall nk o o' l, records (cf_skip cf) nk sw b o o' l -> forall ev, In ev l ->
              exists o, o + len (fe_raw ev) <= len b /\ event_of sw b o (fe_raw ev)).
    { intros nk o o' l R. induction R as [|o o' l A1 A2 A3 A4 IH|o o' l e t A1 A2 A3 A4 A5 A6 A7 IH]; intros ev I0.
      - contradiction.
      - auto.
      - destruct I0 as [<-|I0]; [|auto]. exists o. split; [|exact A4]. cbn [fe_raw].
        destruct A4 as [A4 _]. lia. }
    destruct H as [[_ H]|[_ H]]; [intros; eapply R; eauto|].
    induction H as [| | | |o o' nk l l' A1 A2 A3 A4 A5 IH]; intros ev I0; auto; [contradiction|].
    apply in_app_or in I0. destruct I0 as [I0|I0]; [eapply R; eauto|auto]. }
  split.
  { destruct H as [[(_ & H & _) _]|[(_ & H & _) _]]; exact H. }
  intros ev I0. cbv zeta. destruct (X ev I0) as (o & Y & Z1 & Z2 & Z3 & Z4). exists o.
  split; [exact Y|]. split; [exact Z1|]. rewrite Z1 at 1. split; [exact Z3|].
  intros Hs NK. destruct (Z4 Hs NK) as [W1 W2]. rewrite <- Z1 in W2. split.
  - intros p n I1. split; [rewrite Forall_forall in W1; exact (W1 _ I1)|]. eapply other_number; eauto.
  - intros p n Hp F. eapply other_rest; eauto.
Qed.
Print Assumptions C55_events.

(** Example: a mapping, an exit, an id index of two entries, a namespaces event and
    a time conversion give the same events in either byte order. *)
Definition ex_many (sw : bool) : list N :=
  ex_record sw 1 2 (num sw 4 7 ++ num sw 4 8 ++ num sw 8 0x400000 ++ num sw 8 0x1000 ++ num sw 8 0 ++
                    [47; 98; 105; 110; 0; 0; 0; 0]) ++
  ex_record sw 4 0 (num sw 4 7 ++ num sw 4 1 ++ num sw 4 7 ++ num sw 4 1 ++ num sw 8 99) ++
  ex_record sw 69 0 (num sw 8 2 ++ num sw 8 1 ++ num sw 8 2 ++ num sw 8 3 ++ num sw 8 4 ++
                     num sw 8 5 ++ num sw 8 6 ++ num sw 8 7 ++ num sw 8 8) ++
  ex_record sw 16 0 (num sw 4 7 ++ num sw 4 8 ++ num sw 8 1 ++ num sw 8 3 ++ num sw 8 4026531836) ++
  ex_record sw 79 0 (num sw 8 31 ++ num sw 8 2 ++ num sw 8 3 ++ num sw 8 4 ++ num sw 8 5 ++ [1; 1; 0; 0; 0; 0; 0; 0]).
Example C55_example :
  exists l, length l = 5%nat /\
    (forall sw, events_read [] (ex_file sw (repeat 0 8) (ex_many sw) []) = Ok l) /\
    Forall (fun ev => all_members (fe_raw ev) <> []) l /\
    ex_many true = concat (map (fun ev => other_order (fe_raw ev)) l).
Proof.
  destruct (events_read [] (ex_file false (repeat 0 8) (ex_many false) [])) as [l| | | |] eqn:E;
    try (vm_compute in E; discriminate).
  exists l. vm_compute in E. injection E as <-. split; [reflexivity|].
  split; [intros []; vm_compute; reflexivity|]. split; [repeat constructor; discriminate|vm_compute; reflexivity].
Qed.

(** Findings. *)

(** The type of a ksymbol event (2 bytes at 20) is not turned round. *)
Theorem C55_ksymbol_refuted :
  exists rec : bool -> list N,
    (forall sw, rec sw = ex_record sw 17 0 (num sw 8 0xffffffff81000000 ++ num sw 4 64 ++ num sw 2 1 ++ num sw 2 0 ++
                                            [98; 112; 102; 0; 0; 0; 0; 0])) /\
    events_read [] (ex_file false (repeat 0 8) (rec false) []) = Ok [mkFEvent (rec false) []] /\
    exists e, events_read [] (ex_file true (repeat 0 8) (rec true) []) = Ok [mkFEvent e []] /\
      int_at false (rec false) 20 2 = 1 /\ int_at false e 20 2 = 256.
Proof.
  exists (fun sw => ex_record sw 17 0 (num sw 8 0xffffffff81000000 ++ num sw 4 64 ++ num sw 2 1 ++ num sw 2 0 ++
                                       [98; 112; 102; 0; 0; 0; 0; 0])).
  split; [reflexivity|]. split; [vm_compute; reflexivity|]. eexists. split; [vm_compute; reflexivity|].
  split; vm_compute; reflexivity.
Qed.
Print Assumptions C55_ksymbol_refuted.

(** Data of the other byte order with a cgroup event are refused. *)
Theorem C55_cgroup_refuted :
  exists rec : bool -> list N,
    (forall sw, rec sw = ex_record sw 19 0 (num sw 8 5 ++ [47; 97; 0; 0; 0; 0; 0; 0])) /\
    events_read [] (ex_file false (repeat 0 8) (rec false) []) = Ok [mkFEvent (rec false) []] /\
    events_read [] (ex_file true (repeat 0 8) (rec true) []) = Fail.
Proof.
  exists (fun sw => ex_record sw 19 0 (num sw 8 5 ++ [47; 97; 0; 0; 0; 0; 0; 0])).
  split; [reflexivity|]. split; vm_compute; reflexivity.
Qed.
Print Assumptions C55_cgroup_refuted.
