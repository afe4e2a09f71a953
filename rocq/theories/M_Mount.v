(** Model of the mount tool: olecftools/mount_path_string.c, the functions of
    olecftools/mount_file_system.c that use it, and the timestamps of
    olecftools/mount_file_entry.c.  The build is one without WINAPI and with
    narrow system characters: ESCAPE_CHARACTER is the backslash and
    LIBCPATH_SEPARATOR the slash. *)
From Coq Require Import ZArith List Bool.
From Verif Require Import Base M_Table M_Load M_Stream M_Tree M_Open M_Item.
Import ListNotations.
Open Scope Z_scope.

(** ESCAPE_CHARACTER, line 38. *)
Definition ESCAPE : Z := 92.
(** LIBCPATH_SEPARATOR of libcpath. *)
Definition SLASH : Z := 47.

(** libuna_unicode_character_copy_from_utf8 and _copy_to_utf8: decoding at an
    index gives the character and the next index; encoding gives bytes, or
    fails.  libuna is not in the repository. *)
Record codec := {
  cd_decode : list Z -> Z -> res (Z * Z);
  cd_encode : Z -> res (list Z)
}.

(** Lines 97-126: the value of a hexadecimal digit; upper case digits are
    supported on Windows only. *)
Definition hex_digit (c : Z) : res Z :=
  if (48 <=? c) && (c <=? 57) then Ok (c - 48)
  else if (97 <=? c) && (c <=? 102) then Ok (c - 97 + 10)
  else Err.

(** mount_path_string_copy_hexadecimal_to_integer_32_bit, lines 44-131, of the
    [n] characters at [index]. *)
Fixpoint copy_hexadecimal (n : nat) (s : list Z) (index value : Z) : res Z :=
  match n with
  | O => Ok value
  | S n' =>
      do c <- arr_get s index;
      do d <- hex_digit c;
      copy_hexadecimal n' s (index + 1) (Z.lor (u32 (Z.shiftl value 4)) d)
  end.

(** Lines 268-281 and 626-640: the characters written as \x##. *)
Definition escape_x (c : Z) : bool :=
  (c <=? 31) || (c =? SLASH) || ((127 <=? c) && (c <=? 159)).

(** Lines 314-327 and 703-716: the characters written as \U########. *)
Definition escape_u (c : Z) : bool :=
  ((8232 <=? c) && (c <=? 8233))
  || ((55296 <=? c) && (c <=? 57343))
  || (c =? 57344)
  || (c =? 63743)
  || ((64976 <=? c) && (c <=? 64991))
  || ((65534 <=? Z.land c 65535) && (Z.land c 65535 <=? 65535))
  || (c =? 983040)
  || (c =? 1048573)
  || (c =? 1048576)
  || (1114109 <=? c).

(** The digits printed by %02x and %08x.  A value of more digits than the
    width would be printed in full; the width suffices for the characters that
    are printed, at most 159 and 2^32 - 1. *)
Definition hex_char (d : Z) : Z := if d <? 10 then 48 + d else 87 + d.
Fixpoint print_hex (width : nat) (c : Z) : list Z :=
  match width with
  | O => []
  | S w => print_hex w (c / 16) ++ [hex_char (c mod 16)]
  end.

(** snprintf at [&safe_path[path_index]] with the size [safe_path_size -
    path_index].  [out] is what was written before, so [path_index] is its
    length.  Text that does not fit, or an index past the end where the size
    wraps around, is Undef here and proved not to occur. *)
Definition sprintf_at (out : list Z) (size : Z) (text : list Z) : res (list Z) :=
  if zlen out + zlen text <? size then Ok (out ++ text) else Undef.

(** libuna_unicode_character_copy_to_utf8: fails when the bytes do not fit. *)
Definition put_char (cd : codec) (out : list Z) (size c : Z) : res (list Z) :=
  do bytes <- cd_encode cd c;
  if zlen out + zlen bytes <=? size then Ok (out ++ bytes) else Err.

(** mount_path_string_copy_from_item_path lines 226-397. *)
Fixpoint from_loop (fuel : nat) (cd : codec) (s : list Z) (index size : Z) (out : list Z)
  : res (list Z) :=
  match fuel with
  | O => NoFuel
  | S fuel' =>
      if index <? zlen s then
        do (c, index') <- cd_decode cd s index;
        if c =? 0 then Ok out
        else if escape_x c then
          do out' <- sprintf_at out size (ESCAPE :: 120 :: print_hex 2 c);
          from_loop fuel' cd s index' size out'
        else if escape_u c then
          do out' <- sprintf_at out size (ESCAPE :: 85 :: print_hex 8 c);
          from_loop fuel' cd s index' size out'
        else if c =? ESCAPE then
          if size <? zlen out + 2 then Err
          else from_loop fuel' cd s index' size (out ++ [ESCAPE; c])
        else
          do out' <- put_char cd out size c;
          from_loop fuel' cd s index' size out'
      else Ok out
  end.

(** mount_path_string_copy_from_item_path, lines 136-423: the file name of an
    item name.  The result is the string before the end of string character
    and the size of the buffer. *)
Definition copy_from_item_path (cd : codec) (s : list Z) : res (list Z * Z) :=
  if (zlen s =? 0) || (SSIZE_MAX - 1 <? zlen s) then Err
  else if (SSIZE_MAX - 1) / 10 <? zlen s then Err
  else
    let size := zlen s * 10 + 1 in
    do out <- from_loop (length s + 1) cd s 0 size [];
    if size <=? zlen out then Err else Ok (out, size).

(** mount_path_string_copy_to_item_path lines 562-746: the character that
    follows an escape character, and the index after it. *)
Definition unescape (s : list Z) (index : Z) : res (Z * Z) :=
  if zlen s <? index + 1 then Err
  else
    do character <- arr_get s index;
    let index := index + 1 in
    if character =? ESCAPE then Ok (character, index)
    else if character =? 120 then
      if zlen s <? index + 2 then Err
      else
        do value <- copy_hexadecimal 2 s index 0;
        if ((1 <=? value) && (value <=? 31)) || (value =? SLASH)
           || ((127 <=? value) && (value <=? 159))
        then Ok (value, index + 2) else Err
    else if character =? 85 then
      if zlen s <? index + 8 then Err
      else
        do value <- copy_hexadecimal 8 s index 0;
        if escape_u value then Ok (value, index + 8) else Err
    else Err.

(** Lines 528-774. *)
Fixpoint to_loop (fuel : nat) (cd : codec) (s : list Z) (index size : Z) (out : list Z)
  : res (list Z) :=
  match fuel with
  | O => NoFuel
  | S fuel' =>
      if index <? zlen s then
        do (c, index') <- cd_decode cd s index;
        do (c', index'') <-
          (if c =? SLASH then Ok (SEPARATOR, index')
           else if c =? ESCAPE then unescape s index'
           else Ok (c, index'));
        do out' <- put_char cd out size c';
        to_loop fuel' cd s index'' size out'
      else Ok out
  end.

(** mount_path_string_copy_to_item_path, lines 428-800: the item path of a
    path below the mount point. *)
Definition copy_to_item_path (cd : codec) (s : list Z) : res (list Z * Z) :=
  if (zlen s =? 0) || (SSIZE_MAX - 1 <? zlen s) then Err
  else
    do first <- arr_get s 0;
    if negb (first =? SLASH) then Err
    else
      let size := zlen s + 1 in
      if SSIZE_MAX <? size then Err
      else
        do out <- to_loop (length s + 1) cd s 0 size [];
        if size <=? zlen out then Err else Ok (out, size).

(** The string in a buffer, system_string_length. *)
Fixpoint c_string (l : list Z) : list Z :=
  match l with
  | [] => []
  | c :: l' => if c =? 0 then [] else c :: c_string l'
  end.

(** mount_file_system_get_item_by_path, lines 387-481 of
    mount_file_system.c. *)
Definition mount_item_by_path (u : una) (cd : codec) (e : endian) (o : option tree)
           (path : list Z) : res (option nat) :=
  do (item_path, _) <- copy_to_item_path cd path;
  item_by_utf8_path u e o (c_string item_path).

(** mount_file_system_get_filename_from_item, lines 486-609 of
    mount_file_system.c; [name] is the result of libolecf_item_get_utf8_name
    without the end of string character. *)
Definition mount_file_name (cd : codec) (name : list Z) : res (list Z) :=
  do (f, _) <- copy_from_item_path cd name; Ok f.

(** mount_file_entry_get_creation_time lines 348-354 and
    mount_file_entry_get_modification_time lines 455-461 of
    mount_file_entry.c. *)
Definition mount_time (filetime : Z) : res Z :=
  do posix_time <-
    (if filetime =? 0 then Ok 0
     else do d <- sub_s64 (s64 filetime) 116444736000000000; mul_s64 d 100);
  Ok (u64 posix_time).

(** mount_file_entry_get_file_mode lines 553-561: true for a directory.
    LIBOLECF_ITEM_TYPE_STORAGE is 1 and LIBOLECF_ITEM_TYPE_ROOT_STORAGE 5. *)
Definition mount_is_directory (item_type : Z) : bool := (item_type =? 1) || (item_type =? 5).
