(** Model of the reading of property sets: libolecf/libolecf_property_set.c,
    libolecf_property_section.c, libolecf_property_value.c and
    libolecf_property_set_stream.c.

    Simplified: the value objects of libfvalue (an external library) are
    represented by what the code passes to it; whether libfvalue accepts it,
    and how it converts, are parameters.  The arrays of libcdata are lists.
    Freeing after a failure and running out of memory are not represented,
    nor is the position of the stream after a failure. *)
From Coq Require Import ZArith List Bool.
From Verif Require Import Base M_Table M_Load M_Stream.
Import ListNotations.
Open Scope Z_scope.

(** LIBFVALUE_VALUE_TYPE_* as named in property_value.c, lines 350-475. *)
Inductive fv_type :=
| FvBoolean | FvInteger8 | FvInteger16 | FvInteger32 | FvInteger64
| FvFloat32 | FvFloat64 | FvFiletime | FvGuid | FvBinary
| FvByteString | FvUtf16String.

(** value_encoding: a byte order, the code page of the file or
    LIBFVALUE_CODEPAGE_UTF16_LITTLE_ENDIAN; lines 342-349, 417 and 423. *)
Inductive fv_encoding := EncOrder (e : endian) | EncCodepage (cp : Z) | EncUtf16Little.

(** data_value: the type it was initialized with, and the bytes and encoding
    set in it, if any. *)
Record fvalue := { fv_kind : fv_type; fv_data : option (list Z * fv_encoding) }.

(** The functions of libfvalue that the code calls.
    [lib_new]: libfvalue_value_type_initialize returns 1;
    [lib_set]: libfvalue_value_set_data returns 1;
    [lib_bits n]: libfvalue_value_copy_to_<n>bit;
    [lib_size] and [lib_copy]: libfvalue_value_get_data_size and _copy_data;
    [lib_utf8] and [lib_utf16]: libfvalue_value_copy_to_utf8/utf16_string. *)
Record fvlib := {
  lib_new : fv_type -> bool;
  lib_set : fv_type -> list Z -> fv_encoding -> bool;
  lib_bits : Z -> fvalue -> option Z;
  lib_size : fvalue -> option Z;
  lib_copy : fvalue -> Z -> option (list Z);
  lib_utf8 : fvalue -> Z -> option (list Z);
  lib_utf16 : fvalue -> Z -> option (list Z)
}.

(** libolecf_internal_property_value_t; [pv_value] is [None] when data_value
    is NULL. *)
Record property := { pv_id : Z; pv_type : Z; pv_value : option fvalue }.

(** libolecf_internal_property_section_t. *)
Record section := { sc_class : list Z; sc_properties : list property }.

(** libolecf_internal_property_set_t. *)
Record property_set := {
  ps_order : endian; ps_format : Z; ps_version : Z; ps_class : list Z;
  ps_count : Z; ps_sections : list section
}.

Definition UINT32_MAX : Z := 4294967295.
(** MEMORY_MAXIMUM_ALLOCATION_SIZE, common/memory.h lines 45-46. *)
Definition MAX_ALLOCATION : Z := 134217728.

Section Read.
Variable lib : fvlib.
Variable rd : reader.
Variable v : volume.
Variable d : dirent.
(** io_handle->ascii_codepage. *)
Variable cp : Z.

(** libolecf_stream_read_buffer followed by the comparison of the count with
    the size asked for, as at all places below. *)
Definition pread (c n : Z) : io (list Z * Z) :=
  dio (l, c') <- stream_read_buffer rd v d c n n;
  if zlen l =? n then iret (l, c') else ierr.

(** libolecf_stream_seek_offset with SEEK_SET. *)
Definition pseek (c off : Z) : io Z := ilift (stream_seek_offset d c off SEEK_SET).

(** *** libolecf_property_value.c *)

(** What the switch of lines 350-475 sets: value_type and value_data_size;
    value_type, value_encoding and is_variable_size; is_multi_value; or
    LIBFVALUE_VALUE_TYPE_UNDEFINED. *)
Inductive shape :=
| Fixed (k : fv_type) (size : Z)
| Sized (k : fv_type) (enc : fv_encoding)
| Multi
| Unknown.

Definition one_of (t : Z) (l : list Z) : bool := existsb (Z.eqb t) l.

(** Lines 350-475; the codes are those of include/libolecf/ole.h lines 33-103. *)
Definition shape_of (e : endian) (t : Z) : shape :=
  if t =? 0xb then Fixed FvBoolean 1
  else if one_of t [0x10; 0x11] then Fixed FvInteger8 1
  else if one_of t [0x2; 0x12] then Fixed FvInteger16 2
  else if one_of t [0x3; 0x13; 0xa; 0x16; 0x17] then Fixed FvInteger32 4
  else if t =? 0x4 then Fixed FvFloat32 4
  else if t =? 0x5 then Fixed FvFloat64 8
  else if one_of t [0x14; 0x15] then Fixed FvInteger64 8
  else if one_of t [0x7; 0x6] then Fixed FvBinary 8
  else if t =? 0x40 then Fixed FvFiletime 8
  else if t =? 0x48 then Fixed FvGuid 16
  else if t =? 0xe then Fixed FvBinary 16
  else if t =? 0x1e then Sized FvByteString (EncCodepage cp)
  else if t =? 0x1f then Sized FvUtf16String EncUtf16Little
  else if one_of t [0x41; 0x47] then Sized FvBinary (EncOrder e)
  else if one_of t [0x101e; 0x101f] then Multi
  else if one_of t [0x0; 0x1; 0x8; 0x9; 0xc; 0xd; 0x18; 0x19; 0x1a; 0x1b; 0x1c; 0x1d;
                    0x42; 0x43; 0x44; 0x45; 0x46; 0x49; 0x100c]
  then Sized FvBinary (EncOrder e)
  else Unknown.

(** The loop over the values of a multi-value string, lines 542-717: the
    values are read and dropped.  [k] values are left.  Result: the position
    of the stream. *)
Fixpoint multi_loop (k : nat) (e : endian) (c off : Z) : io Z :=
  match k with
  | O => iret c
  | S k =>
      if UINT32_MAX - 4 <=? off then ierr
      else
        dio (b, c) <- pread c 4;
        let off := u32 (off + 4) in
        dio size <- ilift (get_u32 e b 0);
        if u32 (UINT32_MAX - size) <=? off then ierr
        else if (size =? 0) || (MAX_ALLOCATION <? size) then ierr
        else
          dio (_, c) <- pread c size;
          multi_loop k e c (u32 (off + size))
  end.

(** Lines 843-856: the size up to and with the first zero byte. *)
Fixpoint ascii_size (data : list Z) : Z :=
  match data with
  | [] => 0
  | b :: r => if b =? 0 then 1 else 1 + ascii_size r
  end.

(** Lines 860-874: the same in steps of two bytes.  A last byte without
    partner would be read past the end of the data if it is zero. *)
Fixpoint utf16_size (data : list Z) : res Z :=
  match data with
  | [] => Ok 0
  | [b] => if b =? 0 then Undef else Ok 2
  | b0 :: b1 :: r =>
      if (b0 =? 0) && (b1 =? 0) then Ok 2
      else do n <- utf16_size r; Ok (2 + n)
  end.

(** Lines 877-911.  [data] is the buffer, of which [size] bytes are set. *)
Definition store (k : fv_type) (enc : fv_encoding) (data : list Z) (size : Z) : res fvalue :=
  if negb (lib_new lib k) then Err
  else if 0 <? size then
    if zlen data <? size then Undef
    else if lib_set lib k (slice data 0 size) enc
         then Ok {| fv_kind := k; fv_data := Some (slice data 0 size, enc) |}
         else Err
  else Ok {| fv_kind := k; fv_data := None |}.

(** Lines 776-911, with value_data_size as [size]. *)
Definition read_value (t : Z) (k : fv_type) (enc : fv_encoding) (c size : Z)
  : io (option fvalue * Z) :=
  if 0 <? size then
    let size := if t =? 0x1f then u32 (size * 2) else size in
    if (size =? 0) || (MAX_ALLOCATION <? size) then ierr
    else
      dio (data, c) <- pread c size;
      dio size <- ilift (if t =? 0x1e then Ok (ascii_size data)
                         else if t =? 0x1f then utf16_size data
                         else Ok size);
      dio f <- ilift (store k enc data size);
      iret (Some f, c)
  else
    dio f <- ilift (store k enc [] 0);
    iret (Some f, c).

(** libolecf_property_value_read_data, lines 192-928.  Result: the type, the
    value and the position of the stream.  The encoding of values of fixed
    size is the byte order (lines 342-349). *)
Definition read_data (e : endian) (c off : Z) : io (Z * option fvalue * Z) :=
  if UINT32_MAX - 4 <=? off then ierr
  else
    dio c <- pseek c off;
    dio (b, c) <- pread c 4;
    let off := u32 (off + 4) in
    dio t <- ilift (get_u32 e b 0);
    match shape_of e t with
    | Multi =>
        if UINT32_MAX - 4 <=? off then ierr
        else
          dio (b, c) <- pread c 4;
          let off := u32 (off + 4) in
          dio n <- ilift (get_u32 e b 0);
          dio c <- multi_loop (Z.to_nat n) e c off;
          iret (t, None, c)
    | Unknown => iret (t, None, c)
    | Fixed k size =>
        dio (f, c) <- read_value t k (EncOrder e) c size;
        iret (t, f, c)
    | Sized k enc =>
        dio (b, c) <- pread c 4;
        dio size <- ilift (get_u32 e b 0);
        dio (f, c) <- read_value t k enc c size;
        iret (t, f, c)
    end.

(** libolecf_property_value_read_list_entry, lines 933-1047: identifier,
    offset and position. *)
Definition read_list_entry (e : endian) (c : Z) : io (Z * Z * Z) :=
  dio (b, c) <- pread c 8;
  dio id <- ilift (get_u32 e b 0);
  dio rel <- ilift (get_u32 e b 4);
  iret (id, rel, c).

(** *** libolecf_property_section.c *)

(** The loop of libolecf_property_section_read, lines 568-742.  [base] is
    section_header_offset, [pos] is property_values_list_entry_offset. *)
Fixpoint properties_loop (k : nat) (e : endian) (base c pos : Z) (acc : list property)
  : io (list property * Z) :=
  match k with
  | O => iret (acc, c)
  | S k =>
      dio c <- pseek c pos;
      dio (id, rel, c) <- read_list_entry e c;
      if rel <=? 8 then ierr
      else
        dio pos <- ilift (stream_get_offset d c);
        dio (t, f, c) <- read_data e c (u32 (base + rel));
        properties_loop k e base c pos
          (acc ++ [{| pv_id := id; pv_type := t; pv_value := f |}])
  end.

(** libolecf_property_section_read, lines 434-753.  The sum of line 565 has
    the type size_t, so that it does not wrap. *)
Definition section_read (e : endian) (c base : Z) : io (list property * Z) :=
  dio c <- pseek c base;
  dio (b, c) <- pread c 8;
  dio size <- ilift (get_u32 e b 0);
  dio n <- ilift (get_u32 e b 4);
  properties_loop (Z.to_nat n) e base c (base + 8) [].

(** libolecf_property_section_read_list_entry and _read_list_entry_data, lines
    208-429: class identifier, offset and position. *)
Definition section_list_entry (e : endian) (c : Z) : io (list Z * Z * Z) :=
  dio (b, c) <- pread c 20;
  dio base <- ilift (get_u32 e b 16);
  iret (slice b 0 16, base, c).

(** *** libolecf_property_set.c *)

(** libolecf_property_set_read_header_data, lines 180-367, on the 28 bytes of
    olecf_property_set_header_t (olecf_property_set.h lines 34-60): byte
    order at 0, format at 2, system version at 4, class identifier at 8 and
    number of sections at 24, of which two bytes are taken. *)
Definition read_header (data : list Z) : res property_set :=
  do b0 <- arr_get data 0;
  do b1 <- arr_get data 1;
  do e <- (if (b0 =? 0xfe) && (b1 =? 0xff) then Ok Little
           else if (b0 =? 0xff) && (b1 =? 0xfe) then Ok Big
           else Err);
  do format <- get_u16 e data 2;
  do version <- get_u32 e data 4;
  do n <- get_u16 e data 24;
  Ok {| ps_order := e; ps_format := format; ps_version := version;
        ps_class := slice data 8 16; ps_count := n; ps_sections := [] |}.

(** The loop of libolecf_property_set_read, lines 451-553. *)
Fixpoint sections_loop (k : nat) (e : endian) (c pos : Z) (acc : list section)
  : io (list section * Z) :=
  match k with
  | O => iret (acc, c)
  | S k =>
      dio c <- pseek c pos;
      dio (class, base, c) <- section_list_entry e c;
      dio pos <- ilift (stream_get_offset d c);
      dio (props, c) <- section_read e c base;
      sections_loop k e c pos (acc ++ [{| sc_class := class; sc_properties := props |}])
  end.

(** libolecf_property_set_stream_get_set (libolecf_property_set_stream.c lines
    37-118) and libolecf_property_set_read, lines 372-564.  Result: the set
    and the position of the stream, which starts at [c]. *)
Definition get_set (c : Z) : io (property_set * Z) :=
  dio c <- pseek c 0;
  dio (b, c) <- pread c 28;
  dio h <- ilift (read_header b);
  dio (secs, c) <- sections_loop (Z.to_nat (ps_count h)) (ps_order h) c 28 [];
  iret ({| ps_order := ps_order h; ps_format := ps_format h; ps_version := ps_version h;
           ps_class := ps_class h; ps_count := ps_count h; ps_sections := secs |}, c).

(** *** Accessors *)

(** libolecf_property_set_get_section_by_index, property_set.c lines 675-736. *)
Definition get_section (s : property_set) (i : Z) : res section :=
  match znth (ps_sections s) i with Some x => Ok x | None => Err end.

(** libolecf_property_section_get_property_by_index, property_section.c lines
    864-925. *)
Definition get_property (s : section) (i : Z) : res property :=
  match znth (sc_properties s) i with Some x => Ok x | None => Err end.

(** The call of a function of libfvalue on data_value: it fails on NULL. *)
Definition on_value {A} (p : property) (f : fvalue -> option A) : res A :=
  match pv_value p with
  | Some w => match f w with Some x => Ok x | None => Err end
  | None => Err
  end.

(** libolecf_property_value_get_data_size and _get_data, property_value.c
    lines 1132-1211, and their deprecated twins, lines 1725-1804. *)
Definition get_data_size (p : property) : res Z := on_value p (lib_size lib).
Definition get_data (p : property) (size : Z) : res (list Z) :=
  on_value p (fun w => lib_copy lib w size).

(** libolecf_property_value_get_data_as_boolean, lines 1216-1267; deprecated
    twin lines 1809-1860. *)
Definition get_boolean (p : property) : res Z :=
  if negb (pv_type p =? 0xb) then Err else on_value p (lib_bits lib 8).

(** libolecf_property_value_get_data_as_16bit_integer, lines 1272-1322;
    deprecated twin lines 1865-1915. *)
Definition get_16bit (p : property) : res Z :=
  if negb (pv_type p =? 0x2) && negb (pv_type p =? 0x12) then Err
  else on_value p (lib_bits lib 16).

(** libolecf_property_value_get_data_as_32bit_integer, lines 1327-1377;
    deprecated twin lines 1920-1970. *)
Definition get_32bit (p : property) : res Z :=
  if negb (pv_type p =? 0x3) && negb (pv_type p =? 0x13) then Err
  else on_value p (lib_bits lib 32).

(** libolecf_property_value_get_data_as_64bit_integer, lines 1382-1432;
    deprecated twin lines 1975-2025. *)
Definition get_64bit (p : property) : res Z :=
  if negb (pv_type p =? 0x14) && negb (pv_type p =? 0x15) then Err
  else on_value p (lib_bits lib 64).

(** libolecf_property_value_get_data_as_filetime, lines 1437-1486; deprecated
    twin lines 2030-2079. *)
Definition get_filetime (p : property) : res Z :=
  if negb (pv_type p =? 0x40) then Err else on_value p (lib_bits lib 64).

(** libolecf_property_value_get_data_as_utf8_string, lines 1549-1601, and
    _utf16_string, lines 1664-1716; deprecated twins lines 2142-2194 and
    2257-2309.  The size functions (1492-1542, 1607-1657) have the same
    condition and are not represented. *)
Definition get_utf8 (p : property) (size : Z) : res (list Z) :=
  if negb (pv_type p =? 0x1e) && negb (pv_type p =? 0x1f) then Err
  else on_value p (fun w => lib_utf8 lib w size).
Definition get_utf16 (p : property) (size : Z) : res (list Z) :=
  if negb (pv_type p =? 0x1e) && negb (pv_type p =? 0x1f) then Err
  else on_value p (fun w => lib_utf16 lib w size).

End Read.
