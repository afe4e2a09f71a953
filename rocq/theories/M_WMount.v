(** Model of the mount tool on Windows: olecftools/mount_path_string.c and the
    functions of olecftools/mount_file_system.c that use it, in a build with
    WINAPI and wide system characters.  ESCAPE_CHARACTER is the circumflex,
    LIBCPATH_SEPARATOR the backslash and a string a list of UTF-16 units.
    M_Mount.v has the other build. *)
From Coq Require Import ZArith List Bool.
From Verif Require Import Base M_Table M_Load M_Stream M_Tree M_Open M_Item M_Mount.
Import ListNotations.
Open Scope Z_scope.

(** ESCAPE_CHARACTER, line 36. *)
Definition WESCAPE : Z := 94.
(** LIBCPATH_SEPARATOR of libcpath. *)
Definition WSEP : Z := 92.

(** Lines 97-126: the value of a hexadecimal digit. *)
Definition whex_digit (c : Z) : res Z :=
  if (48 <=? c) && (c <=? 57) then Ok (c - 48)
  else if (65 <=? c) && (c <=? 70) then Ok (c - 65 + 10)
  else if (97 <=? c) && (c <=? 102) then Ok (c - 97 + 10)
  else Err.

(** mount_path_string_copy_hexadecimal_to_integer_32_bit, lines 44-131, of the
    [n] characters at [index]. *)
Fixpoint wcopy_hexadecimal (n : nat) (s : list Z) (index value : Z) : res Z :=
  match n with
  | O => Ok value
  | S n' =>
      do c <- arr_get s index;
      do d <- whex_digit c;
      wcopy_hexadecimal n' s (index + 1) (Z.lor (u32 (Z.shiftl value 4)) d)
  end.

(** Lines 268-281 and 626-640: the characters written as ^x##. *)
Definition wescape_x (c : Z) : bool :=
  (c <=? 31) || (c =? WSEP)
  || (c =? 60) || (c =? 62) || (c =? 58) || (c =? 34)             (* < > : quotation mark *)
  || (c =? 47) || (c =? 124) || (c =? 63) || (c =? 42)            (* / | ? asterisk *)
  || ((127 <=? c) && (c <=? 159)).

(** mount_path_string_copy_from_item_path lines 226-397. *)
Fixpoint wfrom_loop (fuel : nat) (cd : codec) (s : list Z) (index size : Z) (out : list Z)
  : res (list Z) :=
  match fuel with
  | O => NoFuel
  | S fuel' =>
      if index <? zlen s then
        do (c, index') <- cd_decode cd s index;
        if c =? 0 then Ok out
        else if wescape_x c then
          do out' <- sprintf_at out size (WESCAPE :: 120 :: print_hex 2 c);
          wfrom_loop fuel' cd s index' size out'
        else if escape_u c then
          do out' <- sprintf_at out size (WESCAPE :: 85 :: print_hex 8 c);
          wfrom_loop fuel' cd s index' size out'
        else if c =? WESCAPE then
          if size <? zlen out + 2 then Err
          else wfrom_loop fuel' cd s index' size (out ++ [WESCAPE; c])
        else
          do out' <- put_char cd out size c;
          wfrom_loop fuel' cd s index' size out'
      else Ok out
  end.

(** mount_path_string_copy_from_item_path, lines 136-423; a system character
    has 2 bytes (line 199). *)
Definition wcopy_from_item_path (cd : codec) (s : list Z) : res (list Z * Z) :=
  if (zlen s =? 0) || (SSIZE_MAX - 1 <? zlen s) then Err
  else if (SSIZE_MAX - 1) / 20 <? zlen s then Err
  else
    let size := zlen s * 10 + 1 in
    do out <- wfrom_loop (length s + 1) cd s 0 size [];
    if size <=? zlen out then Err else Ok (out, size).

(** mount_path_string_copy_to_item_path lines 562-746: the character that
    follows an escape character, and the index after it. *)
Definition wunescape (s : list Z) (index : Z) : res (Z * Z) :=
  if zlen s <? index + 1 then Err
  else
    do character <- arr_get s index;
    let index := index + 1 in
    if character =? WESCAPE then Ok (character, index)
    else if (character =? 88) || (character =? 120) then
      if zlen s <? index + 2 then Err
      else
        do value <- wcopy_hexadecimal 2 s index 0;
        if ((1 <=? value) && (value <=? 31)) || (value =? WSEP)
           || (value =? 60) || (value =? 62) || (value =? 58) || (value =? 34)
           || (value =? 47) || (value =? 124) || (value =? 63) || (value =? 42)
           || ((127 <=? value) && (value <=? 159))
        then Ok (value, index + 2) else Err
    else if (character =? 85) || (character =? 117) then
      if zlen s <? index + 8 then Err
      else
        do value <- wcopy_hexadecimal 8 s index 0;
        if escape_u value then Ok (value, index + 8) else Err
    else Err.

(** Lines 528-774. *)
Fixpoint wto_loop (fuel : nat) (cd : codec) (s : list Z) (index size : Z) (out : list Z)
  : res (list Z) :=
  match fuel with
  | O => NoFuel
  | S fuel' =>
      if index <? zlen s then
        do (c, index') <- cd_decode cd s index;
        do (c', index'') <-
          (if c =? WSEP then Ok (SEPARATOR, index')
           else if c =? WESCAPE then wunescape s index'
           else Ok (c, index'));
        do out' <- put_char cd out size c';
        wto_loop fuel' cd s index'' size out'
      else Ok out
  end.

(** mount_path_string_copy_to_item_path, lines 428-800. *)
Definition wcopy_to_item_path (cd : codec) (s : list Z) : res (list Z * Z) :=
  if (zlen s =? 0) || (SSIZE_MAX - 1 <? zlen s) then Err
  else
    do first <- arr_get s 0;
    if negb (first =? WSEP) then Err
    else
      let size := zlen s + 1 in
      if SSIZE_MAX / 2 <? size then Err
      else
        do out <- wto_loop (length s + 1) cd s 0 size [];
        if size <=? zlen out then Err else Ok (out, size).

(** mount_file_system_get_item_by_path, lines 387-481 of
    mount_file_system.c. *)
Definition wmount_item_by_path (u : una) (cd : codec) (e : endian) (o : option tree)
           (path : list Z) : res (option nat) :=
  do (item_path, _) <- wcopy_to_item_path cd path;
  item_by_utf16_path u e o (c_string item_path).

(** mount_file_system_get_filename_from_item, lines 486-609 of
    mount_file_system.c; [name] is the result of libolecf_item_get_utf16_name
    without the end of string character. *)
Definition wmount_file_name (cd : codec) (name : list Z) : res (list Z) :=
  do (f, _) <- wcopy_from_item_path cd name; Ok f.
