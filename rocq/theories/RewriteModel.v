(** A PerfReader that has read a file and writes it again (ReadFile, WriteFile). *)
From Verif Require Import Base BytesModel Assoc ReaderOpsModel FileModel SerializerModel AttrModel WriteModel PipelineModel.
Local Open Scope N_scope.

(** The data of a PerfReader as it is written: perf_reader.h:190-215, the proto_ and
    the serializer_ of the reader. FileModel keeps the raw events, the attributes and
    the hybrid PMUs of the recording; here they are the messages made of them
    (perf_reader.cc:1213-1233, 2602-2614, 1755-1781). The list of CPUs of a hybrid PMU
    is left empty: it is written only if the text is empty, and then it is empty. *)
Definition data_of (sw : bool) (st : fstate) : outcome (sstate * wdata) :=
  let s := serializer sw st in
  let! xs := each (message s) (fs_events st) in
  Ok (s, mkWData (fs_mask st) (map (fun a => XFAttr (ser_attr (fa_attr a)) (fa_ids a)) (fs_attrs st)) (fs_types st) xs
           (fs_builds st) (fs_meta st) (map (fun h => XHybrid (fst h) (Some (snd h)) []) (fm_hybrid (fs_meta st)))).

(** perf_reader.cc:511-548, ReadFromString (ReadFile) and then WriteToVector
    (WriteToString, WriteFile) of the same PerfReader. *)
Definition rewrite_file ord (room : N) (bytes : list N) : outcome (list N) :=
  let! st := read_perf_data (new_reader (swapped bytes)) bytes in
  let! d := data_of (swapped bytes) st in
  write_to_vector ord room (fst d) (snd d).
