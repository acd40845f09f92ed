(** Model of src/quipper/address_mapper.{h,cc}. *)
From Verif Require Import Base BytesModel.
Local Open Scope N_scope.

(** address_mapper.h:65-74, MappedRange. *)
Record range := mkRange {
  r_real : N; r_mapped : N; r_size : N; r_id : N; r_off : N; r_un : N }.

(** address_mapper.h:131-145. [mappings_] is the list; the map
    real_addr_to_mapped_range_ is not stored: as long as no two ranges start at
    the same real address it is the list sorted by r_real ([by_real]), and an
    insertion that would break this is reported as [UB] ([insert_key]). *)
Record mapper := mkMapper { m_ranges : list range; m_align : N }.

(** address_mapper.h:22-25: the constructor CHECKs the alignment. *)
Definition new_mapper (alignment : N) : outcome mapper :=
  if (alignment =? 0) || (N.land alignment (sub64 alignment 1) =? 0)
  then Ok (mkMapper [] alignment) else Abort.

(** address_mapper.cc:17-26: the copy has the same list and the map rebuilt from
    it. *)
Definition copy_mapper (m : mapper) : mapper := m.

(** address_mapper.h:77-80. *)
Definition last_addr (real size : N) : N := sub64 (w64 (real + size)) 1.
Definition intersects (e : range) (real size : N) : bool :=
  (r_real e <=? last_addr real size) && (real <=? last_addr (r_real e) (r_size e)).

(** address_mapper.h:83-86. *)
Definition covers (e : range) (real size : N) : bool :=
  (r_real e <=? real) && (last_addr real size <=? last_addr (r_real e) (r_size e)).

(** address_mapper.h:96-98. *)
Definition contains_address (e : range) (a : N) : bool :=
  (r_real e <=? a) && (a <=? last_addr (r_real e) (r_size e)).

(** address_mapper.h:127-129, GetAlignedOffset. *)
Definition aligned_offset (align a : N) : N := N.land a (sub64 align 1).

(** The std::map view: ranges in the order of their real start address. *)
Fixpoint ins_real (e : range) (l : list range) : list range :=
  match l with
  | [] => [e]
  | f :: r => if r_real e <? r_real f then e :: l else f :: ins_real e r
  end.
Definition by_real (l : list range) : list range := fold_right ins_real [] l.

(** std::map::lower_bound / upper_bound as indices. *)
Fixpoint lower_real (l : list range) (k : N) : nat :=
  match l with
  | [] => O
  | e :: r => if r_real e <? k then S (lower_real r k) else O
  end.
Fixpoint upper_real (l : list range) (k : N) : nat :=
  match l with
  | [] => O
  | e :: r => if r_real e <=? k then S (upper_real r k) else O
  end.

(** address_mapper.cc:301-319, GetRangeContainingAddress. *)
Definition range_containing (m : mapper) (a : N) : option range :=
  let l := by_real (m_ranges m) in
  match upper_real l a with
  | O => None
  | S i => match nth_error l i with
           | Some e => if contains_address e a then Some e else None
           | None => None
           end
  end.

(** address_mapper.cc:274-286, GetMappedAddressIDAndOffset: mapped address, id,
    offset. GetMappedAddress (262-270) is its first component. *)
Definition get_mapped (m : mapper) (a : N) : option (N * N * N) :=
  match range_containing m a with
  | None => None
  | Some e => Some (w64 (sub64 a (r_real e) + r_mapped e), r_id e,
                    w64 (sub64 a (r_real e) + r_off e))
  end.

Definition add_un (e : range) (n : N) : range :=
  mkRange (r_real e) (r_mapped e) (r_size e) (r_id e) (r_off e) (w64 (r_un e + n)).
Definition set_un (e : range) (n : N) : range :=
  mkRange (r_real e) (r_mapped e) (r_size e) (r_id e) (r_off e) n.

(** address_mapper.cc:288-299, Unmap of the range starting at [k] (the iterator
    is identified by its real address). *)
Fixpoint unmap_list (l : list range) (k : N) : list range :=
  match l with
  | [] => []
  | e :: r =>
      if r_real e =? k then r
      else match r with
           | [] => [e]
           | f :: r' =>
               if r_real f =? k
               then add_un e (w64 (r_size f + r_un f)) :: r'
               else e :: unmap_list r k
           end
  end.

(** address_mapper.cc:175-221, try_add_range_after: the existing range and the
    new one as they become, or None. *)
Definition try_after (align : N) (e : range) (real size id off : N) : option (range * range) :=
  let e_end := w64 (r_mapped e + r_size e) in
  if negb (align =? 0) then
    let eo := aligned_offset align e_end in
    let boundary := if negb (eo =? 0) then w64 (sub64 e_end eo + align) else e_end in
    let mo := aligned_offset align real in
    let new_end := w64 (w64 (boundary + mo) + size) in
    let space_end := w64 (e_end + r_un e) in
    if space_end <? new_end then None
    else
      let mapped := w64 (boundary + mo) in
      Some (set_un e (sub64 mapped e_end),
            mkRange real mapped size id off (sub64 space_end new_end))
  else
    if r_un e <? size then None
    else Some (set_un e 0, mkRange real e_end size id off (sub64 (r_un e) size)).

(** address_mapper.cc:237-241: the first range after which there is room. *)
Fixpoint try_all (align : N) (l : list range) (real size id off : N) : option (list range) :=
  match l with
  | [] => None
  | e :: r =>
      match try_after align e real size id off with
      | Some (e', n) => Some (e' :: n :: r)
      | None => option_map (cons e) (try_all align r real size id off)
      end
  end.

(** address_mapper.cc:232: only the last range is tried. *)
Fixpoint try_last (align : N) (l : list range) (real size id off : N) : option (list range) :=
  match l with
  | [] => None
  | [e] =>
      match try_after align e real size id off with
      | Some (e', n) => Some [e'; n]
      | None => None
      end
  | e :: r => option_map (cons e) (try_last align r real size id off)
  end.

(** Result of a mapping call: [Ok (true, m)] / [Ok (false, m)] with the mapper
    left behind. *)
Definition mres := outcome (bool * mapper).

(** A range entered under a key that the map already has: list and map are out of
    step from here on, not modelled further. *)
Definition insert_key (m : mapper) (real : N) (l : list range) : mres :=
  if existsb (fun e => r_real e =? real) (m_ranges m) then UB
  else Ok (true, mkMapper l (m_align m)).

(** address_mapper.cc:146-248: finding a place for the new range. *)
Definition place (m : mapper) (real size id off : N) : mres :=
  let al := m_align m in
  let po := if al =? 0 then 0 else aligned_offset al real in
  match m_ranges m with
  | [] => insert_key m real [mkRange real po size id off (sub64 (sub64 max64 size) po)]
  | first :: _ =>
      if w64 (size + po) <=? r_mapped first then
        insert_key m real
          (mkRange real po size id off (sub64 (sub64 (r_mapped first) size) po) :: m_ranges m)
      else
        match (if 10000 <=? len (m_ranges m)
               then try_last al (m_ranges m) real size id off
               else try_all al (m_ranges m) real size id off) with
        | Some l => insert_key m real l
        | None => Ok (false, m)
        end
  end.

(** address_mapper.cc:65-73: the part of the map that is searched. If the end
    iterator lies before the start iterator the loop runs past end(). *)
Definition candidates (m : mapper) (real size : N) : outcome (list range) :=
  let l := by_real (m_ranges m) in
  let i := match lower_real l real with O => O | S i => i end in
  let j := lower_real l (w64 (real + size)) in
  if (i <=? j)%nat then Ok (firstn (j - i) (skipn i l)) else UB.

(** address_mapper.cc:73-84 with remove_existing_mappings: the strictly larger
    covering range, and the ranges to delete. *)
Fixpoint collect (l : list range) (real size : N) (old : option range) (dels : list N)
  : option range * list N :=
  match l with
  | [] => (old, dels)
  | e :: r =>
      if negb (intersects e real size) then collect r real size old dels
      else
        match old with
        | None => if covers e real size && (size <? r_size e)
                  then collect r real size (Some e) dels
                  else collect r real size old (dels ++ [r_real e])
        | Some _ => collect r real size old (dels ++ [r_real e])
        end
  end.

(** address_mapper.cc:32-49: argument checks. *)
Definition bad_range (real size : N) : bool :=
  (size =? 0) ||
  (negb (last_addr real size =? max64) && negb (real <? w64 (real + size))).

(** address_mapper.cc:28-249 with remove_existing_mappings = false and
    allow_unaligned_mappings = false (the recursive calls): any intersecting
    range makes the call fail, so the part from line 86 to 144 is not reached. *)
Definition map_fresh (m : mapper) (real size id off : N) : mres :=
  if bad_range real size then Ok (false, m)
  else
    let! c := candidates m real size in
    if existsb (fun e => intersects e real size) c then Ok (false, m)
    else place m real size id off.

(** Sequencing of calls returning bool, as in [if (!f()) return false;]. *)
Definition and_then (x : mres) (f : mapper -> mres) : mres :=
  match x with
  | Ok (true, m) => f m
  | Ok (false, m) => Ok (false, m)
  | Fail => Fail | Abort => Abort | UB => UB | Hang => Hang
  end.

(** address_mapper.cc:92-144: the new range lies inside the larger range [o]. *)
Definition split_over (m : mapper) (o : range) (real size id off : N) (unaligned : bool) : mres :=
  let m := mkMapper (unmap_list (m_ranges m) (r_real o)) (m_align m) in
  let gap_before := sub64 real (r_real o) in
  let gap_after := sub64 (w64 (r_real o + r_size o)) (w64 (real + size)) in
  if negb unaligned && negb (m_align m =? 0)
     && ((negb (gap_before =? 0) && negb (aligned_offset (m_align m) real =? 0))
         || (negb (gap_after =? 0) && negb (aligned_offset (m_align m) (w64 (real + size)) =? 0)))
  then Ok (false, m)
  else
    and_then (if gap_before =? 0 then Ok (true, m)
              else map_fresh m (r_real o) gap_before (r_id o) (r_off o)) (fun m =>
    and_then (map_fresh m real size id off) (fun m =>
    if gap_after =? 0 then Ok (true, m)
    else map_fresh m (w64 (real + size)) gap_after (r_id o)
           (w64 (w64 (r_off o + gap_before) + size)))).

(** address_mapper.h:47-51 and address_mapper.cc:28-249, MapWithID. *)
Definition map_with_id (m : mapper) (real size id off : N) (unaligned : bool) : mres :=
  if bad_range real size then Ok (false, m)
  else
    let! c := candidates m real size in
    let '(old, dels) := collect c real size None [] in
    let m := mkMapper (fold_left unmap_list dels (m_ranges m)) (m_align m) in
    match old with
    | Some o => split_over m o real size id off unaligned
    | None => place m real size id off
    end.
