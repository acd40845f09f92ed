(** The pprof protobuf messages (src/profile.proto) as records. int64 fields are
    Z, uint64 fields are N, strings are byte lists. Only fields that the modelled
    code reads or writes are present. *)
From Verif Require Import Base.

(** profile.proto:105-108, ValueType. *)
Record vtype := { vt_type : Z; vt_unit : Z }.

(** profile.proto:136-154, Label. *)
Record label := { lb_key : Z; lb_str : Z; lb_num : Z; lb_unit : Z }.

(** profile.proto:114-134, Sample. *)
Record psample := { ps_loc : list N; ps_val : list Z; ps_label : list label }.

(** profile.proto:156-179, Mapping (the four has_* booleans are not set by this
    code and omitted). *)
Record pmapping := { mp_id : N; mp_start : N; mp_limit : N; mp_off : N;
                     mp_file : Z; mp_build : Z }.

(** profile.proto:212-219, Line. *)
Record pline := { ln_fn : N; ln_line : Z; ln_col : Z }.

(** profile.proto:182-210, Location (is_folded omitted). *)
Record plocation := { lc_id : N; lc_mapping : N; lc_addr : N; lc_line : list pline }.

(** profile.proto:221-233, Function. *)
Record pfunction := { fn_id : N; fn_name : Z; fn_sys : Z; fn_file : Z; fn_start : Z }.

(** profile.proto:46-102, Profile (drop_frames/keep_frames omitted). *)
Record profile := {
  pf_sample_type : list vtype;
  pf_sample : list psample;
  pf_mapping : list pmapping;
  pf_location : list plocation;
  pf_function : list pfunction;
  pf_string : list (list N);
  pf_time : Z;
  pf_duration : Z;
  pf_period_type : vtype;
  pf_period : Z;
  pf_comment : list Z;
  pf_default_type : Z;
  pf_doc_url : Z }.

Definition profile0 : profile :=
  {| pf_sample_type := []; pf_sample := []; pf_mapping := []; pf_location := [];
     pf_function := []; pf_string := []; pf_time := 0; pf_duration := 0;
     pf_period_type := {| vt_type := 0; vt_unit := 0 |}; pf_period := 0;
     pf_comment := []; pf_default_type := 0; pf_doc_url := 0 |}.

(** Field updates. *)
Definition set_sample_type x p := {| pf_sample_type := x; pf_sample := pf_sample p; pf_mapping := pf_mapping p; pf_location := pf_location p; pf_function := pf_function p; pf_string := pf_string p; pf_time := pf_time p; pf_duration := pf_duration p; pf_period_type := pf_period_type p; pf_period := pf_period p; pf_comment := pf_comment p; pf_default_type := pf_default_type p; pf_doc_url := pf_doc_url p |}.
Definition set_sample x p := {| pf_sample_type := pf_sample_type p; pf_sample := x; pf_mapping := pf_mapping p; pf_location := pf_location p; pf_function := pf_function p; pf_string := pf_string p; pf_time := pf_time p; pf_duration := pf_duration p; pf_period_type := pf_period_type p; pf_period := pf_period p; pf_comment := pf_comment p; pf_default_type := pf_default_type p; pf_doc_url := pf_doc_url p |}.
Definition set_mapping x p := {| pf_sample_type := pf_sample_type p; pf_sample := pf_sample p; pf_mapping := x; pf_location := pf_location p; pf_function := pf_function p; pf_string := pf_string p; pf_time := pf_time p; pf_duration := pf_duration p; pf_period_type := pf_period_type p; pf_period := pf_period p; pf_comment := pf_comment p; pf_default_type := pf_default_type p; pf_doc_url := pf_doc_url p |}.
Definition set_location x p := {| pf_sample_type := pf_sample_type p; pf_sample := pf_sample p; pf_mapping := pf_mapping p; pf_location := x; pf_function := pf_function p; pf_string := pf_string p; pf_time := pf_time p; pf_duration := pf_duration p; pf_period_type := pf_period_type p; pf_period := pf_period p; pf_comment := pf_comment p; pf_default_type := pf_default_type p; pf_doc_url := pf_doc_url p |}.
Definition set_function x p := {| pf_sample_type := pf_sample_type p; pf_sample := pf_sample p; pf_mapping := pf_mapping p; pf_location := pf_location p; pf_function := x; pf_string := pf_string p; pf_time := pf_time p; pf_duration := pf_duration p; pf_period_type := pf_period_type p; pf_period := pf_period p; pf_comment := pf_comment p; pf_default_type := pf_default_type p; pf_doc_url := pf_doc_url p |}.
Definition set_string x p := {| pf_sample_type := pf_sample_type p; pf_sample := pf_sample p; pf_mapping := pf_mapping p; pf_location := pf_location p; pf_function := pf_function p; pf_string := x; pf_time := pf_time p; pf_duration := pf_duration p; pf_period_type := pf_period_type p; pf_period := pf_period p; pf_comment := pf_comment p; pf_default_type := pf_default_type p; pf_doc_url := pf_doc_url p |}.
Definition set_time x y p := {| pf_sample_type := pf_sample_type p; pf_sample := pf_sample p; pf_mapping := pf_mapping p; pf_location := pf_location p; pf_function := pf_function p; pf_string := pf_string p; pf_time := x; pf_duration := y; pf_period_type := pf_period_type p; pf_period := pf_period p; pf_comment := pf_comment p; pf_default_type := pf_default_type p; pf_doc_url := pf_doc_url p |}.
Definition set_period x y p := {| pf_sample_type := pf_sample_type p; pf_sample := pf_sample p; pf_mapping := pf_mapping p; pf_location := pf_location p; pf_function := pf_function p; pf_string := pf_string p; pf_time := pf_time p; pf_duration := pf_duration p; pf_period_type := x; pf_period := y; pf_comment := pf_comment p; pf_default_type := pf_default_type p; pf_doc_url := pf_doc_url p |}.
Definition set_comment x p := {| pf_sample_type := pf_sample_type p; pf_sample := pf_sample p; pf_mapping := pf_mapping p; pf_location := pf_location p; pf_function := pf_function p; pf_string := pf_string p; pf_time := pf_time p; pf_duration := pf_duration p; pf_period_type := pf_period_type p; pf_period := pf_period p; pf_comment := x; pf_default_type := pf_default_type p; pf_doc_url := pf_doc_url p |}.
Definition set_default_type x p := {| pf_sample_type := pf_sample_type p; pf_sample := pf_sample p; pf_mapping := pf_mapping p; pf_location := pf_location p; pf_function := pf_function p; pf_string := pf_string p; pf_time := pf_time p; pf_duration := pf_duration p; pf_period_type := pf_period_type p; pf_period := pf_period p; pf_comment := pf_comment p; pf_default_type := x; pf_doc_url := pf_doc_url p |}.
Definition set_doc_url x p := {| pf_sample_type := pf_sample_type p; pf_sample := pf_sample p; pf_mapping := pf_mapping p; pf_location := pf_location p; pf_function := pf_function p; pf_string := pf_string p; pf_time := pf_time p; pf_duration := pf_duration p; pf_period_type := pf_period_type p; pf_period := pf_period p; pf_comment := pf_comment p; pf_default_type := pf_default_type p; pf_doc_url := x |}.
