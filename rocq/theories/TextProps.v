(** C09, C10, C11, C46: hex strings, CPU lists, build-id strings, string
    utilities (src/quipper/binary_data_utils.cc, string_utils.cc,
    perf_buildid.cc). *)
From Coq Require Import String.
From Verif Require Import Base BytesModel TextModel TextSpec TextProofs.
Local Open Scope N_scope.
Local Open Scope list_scope.

(** C09. Decoding the hex form into an array: exactly the bytes that fit are
    replaced by the original data, the rest of the array is untouched. With an
    array of the same length the data comes back. *)
Theorem C09_hex_decode_of_encode (d arr : list N) :
  bytes_ok d = true ->
  hex_to_raw (raw_to_hex d) arr =
    (true, firstn (List.length arr) d ++ skipn (List.length d) arr).
Proof. exact (hex_roundtrip_gen d arr). Qed.
Print Assumptions C09_hex_decode_of_encode.

Theorem C09_hex_roundtrip (d arr : list N) :
  bytes_ok d = true -> List.length arr = List.length d ->
  hex_to_raw (raw_to_hex d) arr = (true, d).
Proof.
  intros Hd HL. rewrite hex_roundtrip_gen by exact Hd.
  rewrite firstn_all2 by lia. rewrite skipn_all2 by lia. now rewrite app_nil_r.
Qed.
Print Assumptions C09_hex_roundtrip.

Theorem C09_hex_shape (d : list N) :
  bytes_ok d = true ->
  List.length (raw_to_hex d) = (2 * List.length d)%nat /\
  forallb is_lower_hex (raw_to_hex d) = true.
Proof. exact (fun H => conj (hex_length d) (hex_digits d H)). Qed.
Print Assumptions C09_hex_shape.

Theorem C09_hex_injective (d d' : list N) :
  bytes_ok d = true -> bytes_ok d' = true -> raw_to_hex d = raw_to_hex d' -> d = d'.
Proof. exact (hex_injective d d'). Qed.
Print Assumptions C09_hex_injective.

Example C09_nontrivial :
  raw_to_hex [0; 171; 255] = str "00abff" /\
  hex_to_raw (str "00abff") [9; 9; 9; 9] = (true, [0; 171; 255; 9]).
Proof. vm_compute. split; reflexivity. Qed.

(** C09, finding: HexStringToRawData relies on strtol and accepts pairs that are
    not two hex digits (blank + digit, sign + digit). *)
Theorem C09_accepts_non_hex_refuted :
  exists s, forallb is_lower_hex s = false /\ hex_to_raw s [0; 0] = (true, [5; 255]).
Proof. exists (str " 5-1"). vm_compute. split; reflexivity. Qed.
Print Assumptions C09_accepts_non_hex_refuted.

(** C10. Parse of format is the identity on strictly increasing lists. *)
Theorem C10_cpu_list_roundtrip (l : list N) :
  l <> [] -> strictly_increasing l = true -> (forall y, In y l -> y < max32) ->
  parse_cpu_numbers (format_cpu_numbers l) = Ok l.
Proof. exact (cpu_roundtrip l). Qed.
Print Assumptions C10_cpu_list_roundtrip.

Example C10_nontrivial :
  format_cpu_numbers [0; 1; 3; 7; 8; 9] = str "0-1,3,7-9" /\
  strictly_increasing [0; 1; 3; 7; 8; 9] = true.
Proof. vm_compute. split; reflexivity. Qed.

(** C10. The three side conditions are needed: the empty list, a repeated
    number, and a range ending in 2^32-1 (the parser loops forever). *)
Theorem C10_side_conditions_refuted :
  parse_cpu_numbers (format_cpu_numbers []) = Fail /\
  parse_cpu_numbers (format_cpu_numbers [1; 1]) = Fail /\
  parse_cpu_numbers (format_cpu_numbers [4294967294; 4294967295]) = Hang.
Proof. vm_compute. repeat split. Qed.
Print Assumptions C10_side_conditions_refuted.

(** C11. Padding: exactly 40 characters, the first ones of the id, then '0'. *)
Theorem C11_perfize_shape (s : list N) :
  List.length (perfize_build_id s) = 40%nat /\
  perfize_build_id s = firstn 40 s ++ zeros (40 - List.length s).
Proof. exact (conj (perfize_length s) eq_refl). Qed.
Print Assumptions C11_perfize_shape.

(** C11. Trimming removes only whole trailing groups of 8 zeros, and all of
    them. *)
Theorem C11_trim_removes_trailing_groups (s : list N) :
  exists k, s = trim_zeroes_build_id s ++ zeros (8 * k) /\
    forall t, trim_zeroes_build_id s <> t ++ zeros 8.
Proof.
  destruct (trim_spec s) as (k & E & H). exists k. split; [exact E|].
  intros t Et. rewrite Et, ends_with_padding_zeros8 in H. discriminate.
Qed.
Print Assumptions C11_trim_removes_trailing_groups.

Theorem C11_trim_idempotent (s : list N) :
  trim_zeroes_build_id (trim_zeroes_build_id s) = trim_zeroes_build_id s.
Proof. exact (trim_idempotent s). Qed.
Print Assumptions C11_trim_idempotent.

Theorem C11_perfize_trim_perfize (s : list N) :
  perfize_build_id (trim_zeroes_build_id (perfize_build_id s)) = perfize_build_id s.
Proof. exact (perfize_trim_perfize s). Qed.
Print Assumptions C11_perfize_trim_perfize.

(** C11. Two ids that differ only in zero padding normalise to the same string,
    and conversely equal normal forms mean equal padded ids. *)
Theorem C11_zero_padding_irrelevant (s : list N) (n : nat) :
  (List.length s + n <= 40)%nat ->
  trim_zeroes_build_id (perfize_build_id (s ++ zeros n)) =
  trim_zeroes_build_id (perfize_build_id s).
Proof. intros H. now rewrite perfize_pad. Qed.
Print Assumptions C11_zero_padding_irrelevant.

Theorem C11_normal_form_faithful (s s' : list N) :
  trim_zeroes_build_id (perfize_build_id s) = trim_zeroes_build_id (perfize_build_id s') ->
  perfize_build_id s = perfize_build_id s'.
Proof.
  intros H. rewrite <- (perfize_trim_perfize s), H. apply perfize_trim_perfize.
Qed.
Print Assumptions C11_normal_form_faithful.

Example C11_nontrivial :
  trim_zeroes_build_id (perfize_build_id (str "f00dcafe12")) = str "f00dcafe12000000" /\
  trim_zeroes_build_id (zeros 40) = [].
Proof. vm_compute. split; reflexivity. Qed.

(** C46. TrimWhitespace removes exactly the surrounding blanks. *)
Theorem C46_trim_whitespace (s : list N) :
  exists a b, s = a ++ trim_whitespace s ++ b /\
    forallb is_trim_ws a = true /\ forallb is_trim_ws b = true /\
    (forall c t, trim_whitespace s = c :: t -> is_trim_ws c = false) /\
    (forall c t, trim_whitespace s = t ++ [c] -> is_trim_ws c = false).
Proof. exact (trim_whitespace_spec s). Qed.
Print Assumptions C46_trim_whitespace.

(** C46. SplitString: no token contains the delimiter, and joining the tokens
    gives the input back, up to one trailing delimiter. *)
Theorem C46_split_string (s : list N) (d : N) :
  Forall (fun t => ~ In d t) (split_string s d) /\
  (s = join d (split_string s d) \/ s = join d (split_string s d) ++ [d]).
Proof. exact (split_go_spec d [] s (fun x => x)). Qed.
Print Assumptions C46_split_string.

Theorem C46_split_of_join (d : N) (toks : list (list N)) :
  Forall (fun t => ~ In d t /\ t <> []) toks ->
  split_string (join d toks) d = toks.
Proof. exact (split_join d toks). Qed.
Print Assumptions C46_split_of_join.

(** C46. RootPath always returns a prefix of its argument. *)
Theorem C46_root_path_prefix (f : list N) : exists t, f = root_path f ++ t.
Proof. exact (root_path_prefix f). Qed.
Print Assumptions C46_root_path_prefix.

(** C46. RootPath of an ordinary absolute path: the first two directory levels,
    one level if the path has only one directory, else the root. *)
Theorem C46_root_path_two_levels (n m : nat) (a b t : list N) :
  generic_path (repeat 47 (S n) ++ a ++ repeat 47 (S m) ++ b ++ 47 :: t) ->
  a <> [] -> b <> [] -> ~ In 47 a -> ~ In 47 b ->
  root_path (repeat 47 (S n) ++ a ++ repeat 47 (S m) ++ b ++ 47 :: t) =
  repeat 47 (S n) ++ a ++ repeat 47 (S m) ++ b.
Proof. exact (root_path_two n m a b t). Qed.
Print Assumptions C46_root_path_two_levels.

Theorem C46_root_path_one_level (n m : nat) (a b : list N) :
  generic_path (repeat 47 (S n) ++ a ++ repeat 47 (S m) ++ b) ->
  a <> [] -> ~ In 47 a -> ~ In 47 b ->
  root_path (repeat 47 (S n) ++ a ++ repeat 47 (S m) ++ b) = repeat 47 (S n) ++ a.
Proof. exact (root_path_one n m a b). Qed.
Print Assumptions C46_root_path_one_level.

Theorem C46_root_path_no_directory (n : nat) (a : list N) :
  generic_path (repeat 47 (S n) ++ a) -> ~ In 47 a ->
  root_path (repeat 47 (S n) ++ a) = repeat 47 (S n).
Proof. exact (root_path_zero n a). Qed.
Print Assumptions C46_root_path_no_directory.

Example C46_nontrivial :
  generic_path (str "/opt//google/chrome") /\
  root_path (str "/opt//google/chrome") = str "/opt//google" /\
  root_path (str "/tmp/x/y") = str "/tmp" /\
  trim_whitespace (str "  a b ") = str "a b" /\
  split_string (str "a,,b,") 44 = [str "a"; []; str "b"].
Proof. vm_compute. repeat split. Qed.
