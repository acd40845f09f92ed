(** Models of the text utilities: C library number parsing, hex strings
    (binary_data_utils.cc), string_utils.cc, perf_buildid.cc. Characters are
    bytes (N below 256). *)
From Verif Require Import Base BytesModel.
From Coq Require Import Ascii String.
Local Open Scope N_scope.
Local Open Scope list_scope.

(** Literal strings. *)
Definition str (s : string) : list N := map N_of_ascii (list_ascii_of_string s).
Arguments str s%string_scope.

Fixpoint list_eqb (a b : list N) : bool :=
  match a, b with
  | [], [] => true
  | x :: a', y :: b' => (x =? y) && list_eqb a' b'
  | _, _ => false
  end.

(** std::string::c_str() as seen by C functions: up to the first NUL. *)
Fixpoint c_str (s : list N) : list N :=
  match s with
  | [] => []
  | c :: r => if c =? 0 then [] else c :: c_str r
  end.

(** isspace in the C locale. *)
Definition is_space (c : N) : bool := ((9 <=? c) && (c <=? 13)) || (c =? 32).

Fixpoint skip_spaces (s : list N) : list N :=
  match s with
  | c :: r => if is_space c then skip_spaces r else s
  | [] => []
  end.

(** Value of a digit character in the given base. *)
Definition digit_val (base c : N) : option N :=
  let v := if (48 <=? c) && (c <=? 57) then Some (c - 48)
           else if (97 <=? c) && (c <=? 122) then Some (c - 87)
           else if (65 <=? c) && (c <=? 90) then Some (c - 55)
           else None in
  match v with
  | Some d => if d <? base then Some d else None
  | None => None
  end.

(** Longest digit prefix: accumulated value, number of digits, rest. *)
Fixpoint parse_digits (base acc : N) (s : list N) : N * nat * list N :=
  match s with
  | [] => (acc, O, [])
  | c :: r =>
      match digit_val base c with
      | Some d => let '(v, k, rest) := parse_digits base (acc * base + d) r in (v, S k, rest)
      | None => (acc, O, s)
      end
  end.

(** glibc strtol/strtoul common part (C11 7.22.1.4): white space, sign, optional
    0x prefix in base 16 when a hex digit follows, digits. Returns sign,
    unbounded magnitude and the unparsed rest; without any digit the rest is the
    whole input. *)
Definition strto (base : N) (s : list N) : bool * N * list N :=
  let s1 := skip_spaces s in
  let '(neg, s2) :=
    match s1 with
    | c :: r => if c =? 45 then (true, r) else if c =? 43 then (false, r) else (false, s1)
    | [] => (false, s1)
    end in
  let s3 :=
    match s2 with
    | z :: x :: d :: r =>
        if (base =? 16) && (z =? 48) && ((x =? 120) || (x =? 88))
           && match digit_val 16 d with Some _ => true | None => false end
        then d :: r else s2
    | _ => s2
    end in
  let '(v, k, rest) := parse_digits base 0 s3 in
  match k with
  | O => (false, 0, s)
  | S _ => (neg, v, rest)
  end.

(** strtol: clamped to [LONG_MIN, LONG_MAX]. *)
Definition strtol (base : N) (s : list N) : Z * list N :=
  let '(neg, v, rest) := strto base s in
  if neg then (Z.max (- Z.of_N v) (- Z.of_N two63), rest)
  else (Z.min (Z.of_N v) (Z.of_N two63 - 1), rest).

(** strtoul: ULONG_MAX on overflow, negated modulo 2^64 for a minus sign. *)
Definition strtoul (base : N) (s : list N) : N * list N :=
  let '(neg, v, rest) := strto base s in
  if max64 <? v then (max64, rest)
  else if neg then (w64 (two64 - v), rest) else (v, rest).

(** ** Hex strings *)

(** Lower-case hex digit, as printed by "%x". *)
Definition hex_digit (d : N) : N := if d <? 10 then 48 + d else 87 + d.

(** binary_data_utils.cc:55-65, RawDataToHexString: "%02x" per byte. *)
Definition raw_to_hex (data : list N) : list N :=
  flat_map (fun b => [hex_digit (b / 16); hex_digit (b mod 16)]) data.

(** binary_data_utils.cc:72-85, HexStringToRawData: the loop over pairs of
    characters while the array has room; [arr] is the array (length = [length]
    argument). Returns the success flag and the array. *)
Fixpoint hex_to_raw (s : list N) (arr : list N) : bool * list N :=
  match s, arr with
  | a :: b :: s', x :: arr' =>
      let '(v, err) := strtol 16 (c_str [a; b]) in
      let byte := Z.to_N (v mod 256)%Z in
      match err with
      | [] => let '(ok, rest) := hex_to_raw s' arr' in (ok, byte :: rest)
      | _ => (false, byte :: arr')
      end
  | _, _ => (true, arr)
  end.

(** ** string_utils.cc *)

(** string_utils.cc:16: " \t\n\r". *)
Definition is_trim_ws (c : N) : bool := (c =? 32) || (c =? 9) || (c =? 10) || (c =? 13).

Fixpoint drop_ws (s : list N) : list N :=
  match s with
  | c :: r => if is_trim_ws c then drop_ws r else s
  | [] => []
  end.

(** string_utils.cc:15-25, TrimWhitespace: substring between the first and the
    last non-whitespace character, empty if there is none. *)
Definition trim_whitespace (s : list N) : list N :=
  drop_ws (rev (drop_ws (rev s))).

(** string_utils.cc:27-32, SplitString via std::getline: a token ends at the
    delimiter or at the end of input; at the end of input a token exists only
    if at least one character was extracted. *)
Fixpoint split_go (delim : N) (cur s : list N) : list (list N) :=
  match s with
  | [] => match cur with [] => [] | _ => [rev cur] end
  | c :: r => if c =? delim then rev cur :: split_go delim [] r
              else split_go delim (c :: cur) r
  end.
Definition split_string (s : list N) (delim : N) : list (list N) := split_go delim [] s.

(** string_utils.cc:55-61, Stou32. *)
Definition stou32 (s : list N) : option N :=
  let '(v, rest) := strtoul 10 (c_str s) in
  match rest with [] => Some (w32 v) | _ => None end.

(** string_utils.cc:95-97: for (uint32_t i = start; i <= end; ++i) push_back(i);
    with end = UINT32_MAX the condition never becomes false. *)
Definition cpu_range (s e : N) : outcome (list N) :=
  if e =? max32 then Hang
  else Ok (map (fun i => s + N.of_nat i) (seq 0 (N.to_nat (e + 1 - s)))).

(** string_utils.cc:68-98, body of the loop over tokens. *)
Definition parse_cpu_token (token : list N) : outcome (list N) :=
  match split_string token 45 with
  | [_] => match stou32 token with Some c => Ok [c] | None => Fail end
  | [a; b] =>
      match stou32 a, stou32 b with
      | Some s, Some e => if e <=? s then Fail else cpu_range s e
      | _, _ => Fail
      end
  | _ => Fail
  end.

Fixpoint parse_cpu_tokens (tokens : list (list N)) : outcome (list N) :=
  match tokens with
  | [] => Ok []
  | t :: r => let! a := parse_cpu_token t in
              let! b := parse_cpu_tokens r in Ok (a ++ b)
  end.

(** string_utils.cc:63-101, ParseCPUNumbers (result initially empty; on failure
    the partially filled result is not modelled). *)
Definition parse_cpu_numbers (cpus : list N) : outcome (list N) :=
  match split_string cpus 44 with
  | [] => Fail
  | tokens => parse_cpu_tokens tokens
  end.

(** Decimal printing of an unsigned number (operator<< on streams). *)
Fixpoint dec_go (fuel : nat) (n : N) : list N :=
  match fuel with
  | O => []
  | S f => if n <? 10 then [48 + n] else dec_go f (n / 10) ++ [48 + n mod 10]
  end.
Definition print_dec (n : N) : list N := dec_go (S (N.size_nat n)) n.

(** string_utils.cc:111-113: the run starting after [prev]: elements until one
    exceeds its predecessor + 1 (32-bit addition). Returns the last element of
    the run, its number of further elements, and the rest. *)
Fixpoint cpu_run (prev : N) (l : list N) : N * nat * list N :=
  match l with
  | [] => (prev, O, [])
  | x :: r => if w32 (prev + 1) <? x then (prev, O, l)
              else let '(last, k, rest) := cpu_run x r in (last, S k, rest)
  end.

(** string_utils.cc:103-122, FormatCPUNumbers; [first] is i == 0. The int
    indices are assumed not to overflow (fewer than 2^31 CPUs). *)
Fixpoint format_cpu_go (fuel : nat) (first : bool) (l : list N) : list N :=
  match fuel, l with
  | S f, x :: r =>
      let '(last, k, rest) := cpu_run x r in
      (if first then [] else [44]) ++
      (match k with O => print_dec x | S _ => print_dec x ++ [45] ++ print_dec last end) ++
      format_cpu_go f false rest
  | _, _ => []
  end.
Definition format_cpu_numbers (l : list N) : list N := format_cpu_go (List.length l) true l.

(** ** perf_buildid.cc *)

(** perf_buildid.h:17-18, kBuildIDStringLength. *)
Definition build_id_string_length : nat := 40.

(** std::string::resize(n, c). *)
Definition resize (s : list N) (n : nat) (c : N) : list N :=
  firstn n s ++ repeat c (n - List.length s).

(** perf_buildid.cc:11-13, PerfizeBuildIDString ('0' is 48). *)
Definition perfize_build_id (s : list N) : list N := resize s build_id_string_length 48.

(** perf_buildid.cc:24-27: one iteration's condition. *)
Definition ends_with_padding (s : list N) : bool :=
  (8 <=? List.length s)%nat && list_eqb (skipn (List.length s - 8) s) (repeat 48 8).

(** perf_buildid.cc:15-28, TrimZeroesFromBuildIDString; fuel = length. *)
Fixpoint trim_go (fuel : nat) (s : list N) : list N :=
  match fuel with
  | O => s
  | S f => if ends_with_padding s
           then trim_go f (firstn (List.length s - 8) s) else s
  end.
Definition trim_zeroes_build_id (s : list N) : list N := trim_go (List.length s) s.

(** ** RootPath *)

(** rfind(prefix, 0) == 0. *)
Fixpoint starts_with (p s : list N) : bool :=
  match p, s with
  | [], _ => true
  | x :: p', y :: s' => (x =? y) && starts_with p' s'
  | _ :: _, [] => false
  end.

(** Number of leading '/' from a position. *)
Fixpoint count_slashes (s : list N) : nat :=
  match s with
  | c :: r => if c =? 47 then S (count_slashes r) else O
  | [] => O
  end.

(** Distance to the next '/', None if there is none. *)
Fixpoint find_slash (s : list N) : option nat :=
  match s with
  | [] => None
  | c :: r => if c =? 47 then Some O
              else match find_slash r with Some k => Some (S k) | None => None end
  end.

(** string_utils.cc:46-51, the for loop with [n] iterations left. *)
Fixpoint root_path_loop (n : nat) (f : list N) (pos next : nat) : nat :=
  match n with
  | O => pos
  | S n' =>
      let next1 := (next + count_slashes (skipn next f))%nat in
      match find_slash (skipn next1 f) with
      | None => pos
      | Some k => root_path_loop n' f (next1 + k)%nat (next1 + k)%nat
      end
  end.

(** string_utils.cc:34-53, RootPath. filename[0] of an empty string is NUL. *)
Definition root_path (f : list N) : list N :=
  if starts_with (str "[anon:") f then str "[anon:"
  else if starts_with (str "/memfd:") f then str "/memfd:"
  else if starts_with (str "/tmp/") f then str "/tmp"
  else match f with
       | c :: r =>
           if c =? 47 then
             let pos := (1 + count_slashes r)%nat in
             firstn (root_path_loop 2 f pos pos) f
           else []
       | [] => []
       end.
