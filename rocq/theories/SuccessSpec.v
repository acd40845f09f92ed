(** C63: recordings that are converted for certain, in terms of the messages of their
    records. *)
From Coq Require Import String.
From Verif Require Import Base TextModel Assoc PerfProto SerializerModel PipelineSpec.
Local Open Scope N_scope.
Local Open Scope list_scope.

(** A mapping of whole pages, not empty, in one half of the address space. The file
    offset is one of pages too; offset and process id are of their types. *)
Definition sound_map (m : x_mmap) : Prop :=
  0 < xm_len m /\ xm_start m + xm_len m < 2 ^ 64 /\
  (xm_start m + xm_len m <= 2 ^ 63 \/ 2 ^ 63 < xm_start m) /\
  xm_start m mod 4096 = 0 /\ xm_len m mod 4096 = 0 /\ xm_pgoff m mod 4096 = 0 /\
  xm_pgoff m < 2 ^ 64 /\ xm_pid m < 2 ^ 32.

(** Number of mappings times their size in all: an address space with this room is
    never full. *)
Definition mapped_size (xs : list x_event) : N := total_of (map xm_len (mappings xs)).
Definition roomy_maps (xs : list x_event) : Prop :=
  N.of_nat (List.length (mappings xs)) * (mapped_size xs + 6 * 4096) < 2 ^ 64.

(** Kernel symbols do not wrap around the end of memory. *)
Definition sound_symbols (xs : list x_event) : Prop :=
  forall x k, In x xs -> xe_body x = XBKsymbol k -> xk_addr k + xk_len k < 2 ^ 64.

(** No process has the name of the mapping that stands for lost samples. *)
Definition none_named_lost (xs : list x_event) : Prop :=
  forall x c, In x xs -> xe_body x = XBComm c -> xc_comm c <> str "[lost]".

(** Profiles are one for each process (option 1), or process 0 has no name given. *)
Definition no_reset (options : N) (xs : list x_event) : Prop :=
  N.land options 1 <> 0 \/ forall x c, In x xs -> xe_body x = XBComm c -> xc_pid c <> 0.

(** What a record can add to a value of a profile: of a sample, the larger of 1 and its
    weight without sign; of a report of lost samples, that for each of them. *)
Definition sample_load (ids : list (list N)) (periods : list N) (id : option N) (period : N) : Z :=
  match event_of ids id with
  | Some j => Z.max 1 (Z.abs (weighs (nth j periods 0) period))
  | None => 0%Z
  end.
Definition record_load (ids : list (list N)) (periods : list N) (new drop : bool) (x : x_event) : Z :=
  match xe_body x, new with
  | XBSample s, _ => sample_load ids periods (xsa_id s) (dflt (xsa_period s))
  | XBLostSamples l, true =>
      if drop then 0%Z else (Z.of_N (xls_lost l) * sample_load ids periods (Some (dflt (xi_id (xls_info l)))) 0)%Z
  | XBLost l, false =>
      if drop then 0%Z else (Z.of_N (xl_lost l) * sample_load ids periods (Some (xl_id l)) 0)%Z
  | _, _ => 0%Z
  end.
Definition total_load (ids : list (list N)) (periods : list N) (new drop : bool) (xs : list x_event) : Z :=
  total_z (map (record_load ids periods new drop) xs).
