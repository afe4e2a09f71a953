(** Model of libolecf_property_set_stream_get_set and libolecf_property_set_free
    when requests for memory can fail: the functions of M_Prop.v with every
    allocation and release, and the error paths.  Unlike M_PropFree.v it has the
    arrays of libcdata and the temporary buffers, too.  The state of the memory
    is that of M_Mem.v. *)
From Coq Require Import ZArith List Bool.
From Verif Require Import Base M_Table M_Load M_Stream M_Prop M_Mem.
Import ListNotations.
Open Scope Z_scope.

(** libolecf_internal_property_value_t: the structure, the blocks of its
    data_value (the value of libfvalue and the buffer that it was given; none if
    data_value is NULL) and the contents. *)
Record mvalue := {
  mv_struct : Z;
  mv_data : list Z;
  mv_property : property
}.

(** libolecf_internal_property_section_t: the structure, the array and the
    contents. *)
Record msection := {
  ms_struct : Z;
  ms_array : Z;
  ms_class : list Z;
  ms_values : list mvalue
}.

(** libolecf_internal_property_set_t: the structure, the array, the fields of
    the header and the sections. *)
Record mset := {
  mp_struct : Z;
  mp_array : Z;
  mp_header : property_set;
  mp_sections : list msection
}.

(** libolecf_property_value.c libolecf_internal_property_value_free, lines
    145-187: data_value, then the structure. *)
Definition mv_blocks (x : mvalue) : list Z := mv_data x ++ [mv_struct x].
Definition mv_free (x : mvalue) : mm unit := release_all (mv_blocks x).

(** libolecf_property_section.c libolecf_internal_property_section_free, lines
    163-205: libcdata_array_free frees the entries and the array. *)
Definition ms_blocks (x : msection) : list Z :=
  flat_map mv_blocks (ms_values x) ++ [ms_array x; ms_struct x].
Definition ms_free (x : msection) : mm unit := release_all (ms_blocks x).

(** libolecf_property_set.c libolecf_property_set_free, lines 133-177. *)
Definition mp_blocks (x : mset) : list Z :=
  flat_map ms_blocks (mp_sections x) ++ [mp_array x; mp_struct x].
Definition mp_free (x : mset) : mm unit := release_all (mp_blocks x).

(** The set without its places in memory. *)
Definition plain_section (x : msection) : section :=
  {| sc_class := ms_class x; sc_properties := map mv_property (ms_values x) |}.
Definition plain_set (x : mset) : property_set :=
  let h := mp_header x in
  {| ps_order := ps_order h; ps_format := ps_format h; ps_version := ps_version h;
     ps_class := ps_class h; ps_count := ps_count h;
     ps_sections := map plain_section (mp_sections x) |}.

(** A structure and its array: libolecf_property_set_initialize (lines 46-128 of
    libolecf_property_set.c) and libolecf_property_section_initialize (lines
    47-129 of libolecf_property_section.c).  on_error frees the structure. *)
Definition with_array (mem : memory) (k : kind) : mm (option (Z * Z)) :=
  dm s <- alloc mem k;
  match s with
  | None => mret None
  | Some s =>
      dm a <- alloc mem k;
      match a with
      | None => dm _ <- release s; mret None
      | Some a => mret (Some (s, a))
      end
  end.

Section Read.
Variable mem : memory.
Variable lib : fvlib.
Variable rd : reader.
Variable v : volume.
Variable d : dirent.
Variable cp : Z.

(** libolecf_property_value_read_data lines 542-717, the values of a
    multi-value string: each gets a buffer that is released after the read
    (lines 713-716), or at on_error (lines 922-926). *)
Fixpoint mp_multi_loop (k : nat) (e : endian) (c off : Z) : mm (option Z) :=
  match k with
  | O => mret (Some c)
  | S k =>
      if UINT32_MAX - 4 <=? off then mret None
      else
        dm r <- mio (pread rd v d c 4);
        match r with
        | None => mret None
        | Some (b, c) =>
            let off := u32 (off + 4) in
            dm size <- mlift (get_u32 e b 0);
            if u32 (UINT32_MAX - size) <=? off then mret None
            else if (size =? 0) || (MAX_ALLOCATION <? size) then mret None
            else
              dm data <- alloc mem RProperties;                  (* 654 *)
              match data with
              | None => mret None
              | Some data =>
                  dm r <- mio (pread rd v d c size);
                  dm _ <- release data;
                  match r with
                  | None => mret None
                  | Some (_, c) => mp_multi_loop k e c (u32 (off + size))
                  end
              end
        end
  end.

(** Lines 877-911 and on_error, lines 915-927.  [buf] is the buffer, NULL if
    there is no data.  libfvalue_value_set_data takes the buffer over if it
    succeeds; with a size of 0 the buffer would be left behind. *)
Definition mp_store (k : fv_type) (enc : fv_encoding) (buf : option Z) (data : list Z) (size : Z)
  : mm (option (fvalue * list Z)) :=
  let fail (blocks : list Z) : mm (option (fvalue * list Z)) := dm _ <- release_all blocks; mret None in
  if negb (lib_new lib k) then fail (opt_list buf)
  else
    dm w <- alloc mem RProperties;                               (* 877 *)
    match w with
    | None => fail (opt_list buf)
    | Some w =>
        if 0 <? size then
          if zlen data <? size then mlift Undef
          else
            dm ok <- grant mem RProperties;                      (* 893 *)
            if ok && lib_set lib k (slice data 0 size) enc
            then mret (Some ({| fv_kind := k; fv_data := Some (slice data 0 size, enc) |}, w :: opt_list buf))
            else fail (w :: opt_list buf)
        else mret (Some ({| fv_kind := k; fv_data := None |}, [w]))
    end.

(** Lines 776-911. *)
Definition mp_read_value (t : Z) (k : fv_type) (enc : fv_encoding) (c size : Z)
  : mm (option (fvalue * list Z * Z)) :=
  if 0 <? size then
    let size := if t =? 0x1f then u32 (size * 2) else size in
    if (size =? 0) || (MAX_ALLOCATION <? size) then mret None
    else
      dm buf <- alloc mem RProperties;                           (* 794 *)
      match buf with
      | None => mret None
      | Some buf =>
          dm r <- mio (pread rd v d c size);
          match r with
          | None => dm _ <- release buf; mret None
          | Some (data, c) =>
              dm size <- mlift (if t =? 0x1e then Ok (ascii_size data)
                                else if t =? 0x1f then utf16_size data
                                else Ok size);
              dm r <- mp_store k enc (Some buf) data size;
              match r with
              | None => mret None
              | Some (w, blocks) => mret (Some (w, blocks, c))
              end
          end
      end
  else
    dm r <- mp_store k enc None [] 0;
    match r with
    | None => mret None
    | Some (w, blocks) => mret (Some (w, blocks, c))
    end.

(** libolecf_property_value_read_data, lines 192-928. *)
Definition mp_read_data (e : endian) (c off : Z) : mm (option (Z * option fvalue * list Z * Z)) :=
  if UINT32_MAX - 4 <=? off then mret None
  else
    dm r <- mio (dio c <- pseek d c off; pread rd v d c 4);
    match r with
    | None => mret None
    | Some (b, c) =>
        let off := u32 (off + 4) in
        dm t <- mlift (get_u32 e b 0);
        let value k enc c size :=
          dm r <- mp_read_value t k enc c size;
          match r with
          | None => mret None
          | Some (w, blocks, c) => mret (Some (t, Some w, blocks, c))
          end in
        match shape_of cp e t with
        | Multi =>
            if UINT32_MAX - 4 <=? off then mret None
            else
              dm r <- mio (pread rd v d c 4);
              match r with
              | None => mret None
              | Some (b, c) =>
                  let off := u32 (off + 4) in
                  dm n <- mlift (get_u32 e b 0);
                  dm r <- mp_multi_loop (Z.to_nat n) e c off;
                  match r with
                  | None => mret None
                  | Some c => mret (Some (t, None, [], c))
                  end
              end
        | Unknown => mret (Some (t, None, [], c))
        | Fixed k size => value k (EncOrder e) c size
        | Sized k enc =>
            dm r <- mio (pread rd v d c 4);
            match r with
            | None => mret None
            | Some (b, c) =>
                dm size <- mlift (get_u32 e b 0);
                value k enc c size
            end
        end
    end.

(** The loop of libolecf_property_section_read, lines 568-742.  on_error (lines
    745-752) frees the value that is not in the array yet; the values that are
    in the array stay there, so that they are returned in any case.  The
    boolean is false if on_error was reached. *)
Fixpoint mp_properties_loop (n : nat) (e : endian) (base c pos : Z) (acc : list mvalue)
  : mm (bool * list mvalue * Z) :=
  let fail (blocks : list Z) : mm (bool * list mvalue * Z) :=
    dm _ <- release_all blocks; mret (false, acc, c) in
  match n with
  | O => mret (true, acc, c)
  | S n =>
      dm r <- mio (pseek d c pos);
      match r with
      | None => fail []
      | Some c =>
          dm x <- alloc mem RProperties;                         (* 590; property_value.c 72 *)
          match x with
          | None => fail []
          | Some x =>
              dm r <- mio (dio (id, rel, c) <- read_list_entry rd v d e c;
                           if rel <=? 8 then ierr
                           else dio pos <- ilift (stream_get_offset d c);
                                iret (id, rel, pos, c));
              match r with
              | None => fail [x]
              | Some (id, rel, pos, c) =>
                  dm r <- mp_read_data e c (u32 (base + rel));
                  match r with
                  | None => fail [x]
                  | Some (t, w, blocks, c) =>
                      dm ok <- grant mem RProperties;            (* 725 *)
                      if ok then
                        mp_properties_loop n e base c pos
                          (acc ++ [{| mv_struct := x; mv_data := blocks;
                                      mv_property := {| pv_id := id; pv_type := t; pv_value := w |} |}])
                      else fail (blocks ++ [x])
                  end
              end
          end
      end
  end.

(** libolecf_property_section_read, lines 434-753. *)
Definition mp_section_read (e : endian) (c base : Z) : mm (bool * list mvalue * Z) :=
  dm r <- mio (dio c <- pseek d c base;
               dio (b, c) <- pread rd v d c 8;
               dio size <- ilift (get_u32 e b 0);
               dio n <- ilift (get_u32 e b 4);
               iret (n, c));
  match r with
  | None => mret (false, [], c)
  | Some (n, c) => mp_properties_loop (Z.to_nat n) e base c (base + 8) []
  end.

(** The loop of libolecf_property_set_read, lines 451-553.  At on_error (lines
    556-562) libolecf_property_section_free gets the section that is not in the
    array yet and frees nothing of it (libolecf_property_section.c lines
    134-158). *)
Fixpoint mp_sections_loop (n : nat) (e : endian) (c pos : Z) (acc : list msection)
  : mm (bool * list msection * Z) :=
  let fail : mm (bool * list msection * Z) := mret (false, acc, c) in
  match n with
  | O => mret (true, acc, c)
  | S n =>
      dm r <- with_array mem RSection;                           (* 455 *)
      match r with
      | None => fail
      | Some (x, a) =>
          dm r <- mio (dio c <- pseek d c pos;
                       dio (class, base, c) <- section_list_entry rd v d e c;
                       dio pos <- ilift (stream_get_offset d c);
                       iret (class, base, pos, c));
          match r with
          | None => fail
          | Some (class, base, pos, c) =>
              dm (ok, values, c) <- mp_section_read e c base;
              if ok then
                dm ok <- grant mem RSet;                         (* 536 *)
                if ok then
                  mp_sections_loop n e c pos
                    (acc ++ [{| ms_struct := x; ms_array := a; ms_class := class; ms_values := values |}])
                else fail
              else fail
          end
      end
  end.

(** libolecf_property_set_stream.c libolecf_property_set_stream_get_set, lines
    37-118, and libolecf_property_set.c libolecf_property_set_read, lines
    372-564.  on_error (lines 110-117) frees the set with the sections that are
    in its array. *)
Definition mp_get_set (c : Z) : mm (option (mset * Z)) :=
  dm r <- with_array mem RSet;
  match r with
  | None => mret None
  | Some (x, a) =>
      dm r <- mio (dio c <- pseek d c 0;
                   dio (b, c) <- pread rd v d c 28;
                   dio h <- ilift (read_header b);
                   iret (h, c));
      match r with
      | None => dm _ <- release_all [a; x]; mret None
      | Some (h, c) =>
          dm (ok, secs, c) <- mp_sections_loop (Z.to_nat (ps_count h)) (ps_order h) c 28 [];
          let y := {| mp_struct := x; mp_array := a; mp_header := h; mp_sections := secs |} in
          if ok then mret (Some (y, c))
          else dm _ <- mp_free y; mret None
      end
  end.

End Read.
