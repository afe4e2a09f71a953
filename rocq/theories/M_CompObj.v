(** Model of libolecf/libolecf_compound_object_stream.c, in a build without
    debug output (with it, what follows in the stream is read and printed).

    Simplified: what is read into the buffers is not kept, as in the code
    ("TODO do something with string").  The buffers that are allocated are
    numbered in the order of their allocation; which of the three variables
    points to which buffer is part of the state. *)
From Coq Require Import ZArith List Bool.
From Verif Require Import Base M_Table M_Load M_Stream.
Import ListNotations.
Open Scope Z_scope.

(** The variables user_type_string, clipboard_data and reserved_string. *)
Inductive variable := UserType | Clipboard | Reserved.

Inductive mevent :=
| Allocate (k : nat) (size : Z)
| Release (k : nat).

(** current_offset of the item, the reads of the file, the allocations and
    releases so far, the number of the next buffer and the pointers. *)
Record cstate := {
  c_offset : Z;
  c_trace : trace;
  c_log : list mevent;
  c_next : nat;
  c_user : option nat;
  c_clipboard : option nat;
  c_reserved : option nat
}.

Definition pointer (x : variable) (w : cstate) : option nat :=
  match x with
  | UserType => c_user w
  | Clipboard => c_clipboard w
  | Reserved => c_reserved w
  end.

Definition set_pointer (x : variable) (p : option nat) (w : cstate) : cstate :=
  {| c_offset := c_offset w; c_trace := c_trace w; c_log := c_log w; c_next := c_next w;
     c_user := match x with UserType => p | _ => c_user w end;
     c_clipboard := match x with Clipboard => p | _ => c_clipboard w end;
     c_reserved := match x with Reserved => p | _ => c_reserved w end |}.

Definition cio (A : Type) := cstate -> res A * cstate.
Definition cret {A} (a : A) : cio A := fun w => (Ok a, w).
Definition cerr {A} : cio A := fun w => (Err, w).
Definition cbind {A B} (m : cio A) (k : A -> cio B) : cio B :=
  fun w => match m w with
           | (Ok a, w') => k a w'
           | (Err, w') => (Err, w')
           | (Undef, w') => (Undef, w')
           | (NoFuel, w') => (NoFuel, w')
           end.

Notation "'dc' x <- m ; k" := (cbind m (fun x => k))
  (at level 200, x pattern, m at level 100, k at level 200, right associativity).

(** memory_allocate.  [mem k] says whether there is memory for buffer [k]. *)
Definition allocate (mem : nat -> bool) (x : variable) (size : Z) : cio unit :=
  fun w =>
    let w' := {| c_offset := c_offset w; c_trace := c_trace w;
                 c_log := if mem (c_next w) then c_log w ++ [Allocate (c_next w) size] else c_log w;
                 c_next := S (c_next w);
                 c_user := c_user w; c_clipboard := c_clipboard w; c_reserved := c_reserved w |} in
    if mem (c_next w) then (Ok tt, set_pointer x (Some (c_next w)) w')
    else (Err, set_pointer x None w').

(** memory_free of the buffer of a variable. *)
Definition release (x : variable) : cio unit :=
  fun w =>
    match pointer x w with
    | None => (Ok tt, w)
    | Some k =>
        (Ok tt, {| c_offset := c_offset w; c_trace := c_trace w;
                   c_log := c_log w ++ [Release k]; c_next := c_next w;
                   c_user := c_user w; c_clipboard := c_clipboard w; c_reserved := c_reserved w |})
    end.

Section Read.
Variable mem : nat -> bool.
Variable rd : reader.
Variable v : volume.
Variable d : dirent.

(** libolecf_io_handle_read_stream into a buffer of [n] bytes at the current
    offset, followed by the comparison of the count; lines 110-131, 174-195,
    243-264 and so on.  The size of the stream does not limit the read. *)
Definition read_field (n : Z) : cio (list Z) :=
  fun w =>
    let (r, t) := io_read_stream rd v d (c_offset w) n n (c_trace w) in
    let moved o := {| c_offset := o; c_trace := t; c_log := c_log w; c_next := c_next w;
                      c_user := c_user w; c_clipboard := c_clipboard w; c_reserved := c_reserved w |} in
    match r with
    | Ok l => (if zlen l =? n then Ok l else Err, moved (c_offset w + zlen l))
    | Err => (Err, moved (c_offset w))
    | Undef => (Undef, moved (c_offset w))
    | NoFuel => (NoFuel, moved (c_offset w))
    end.

(** A 32-bit value in the byte order of the file, lines 174-207, 283-316,
    414-447, 527-560, 576-609, 686-719 and 817-850. *)
Definition read_number : cio Z :=
  dc l <- read_field 4;
  fun w => (get_u32 (v_byte_order v) l 0, w).

(** A buffer is allocated, filled, freed and forgotten: lines 229-279,
    359-410, 470-521, 632-682, 762-813 and 873-924. *)
Definition read_string (x : variable) (size : Z) : cio unit :=
  dc _ <- allocate mem x size;
  dc _ <- read_field size;
  dc _ <- release x;
  fun w => (Ok tt, set_pointer x None w).

(** Lines 174-279. *)
Definition read_user_type : cio unit :=
  dc size <- read_number;
  if (size =? 0) || (MEMORY_MAXIMUM_ALLOCATION_SIZE <? size) then cerr
  else read_string UserType size.

(** Lines 283-411 and 686-814.  The two values of lines 327-328 and 730-731
    have seven digits. *)
Definition read_clipboard : cio unit :=
  dc size <- read_number;
  let size := if (size =? 0xffffffe) || (size =? 0xfffffff) then 4 else size in
  if 0x190 <? size then cerr
  else if 0 <? size then
    if MEMORY_MAXIMUM_ALLOCATION_SIZE <? size then cerr
    else read_string Clipboard size
  else cret tt.

(** Lines 414-522 and 817-925, and for user_type_string lines 576-683. *)
Definition read_optional (x : variable) : cio unit :=
  dc size <- read_number;
  if 0 <? size then
    if MEMORY_MAXIMUM_ALLOCATION_SIZE <? size then cerr
    else read_string x size
  else cret tt.

(** Lines 523 and 571. *)
Definition more_data : cio bool := fun w => (Ok (c_offset w <? de_size d), w).

(** Lines 110-926. *)
Definition read_object : cio unit :=
  dc _ <- read_field 28;
  dc _ <- read_user_type;
  dc _ <- read_clipboard;
  dc _ <- read_optional Reserved;
  dc more <- more_data;
  dc marker <- (if more then read_number else cret 0);
  dc more <- more_data;
  if more && (marker =? 0x71b239f4) then
    dc _ <- read_optional UserType;
    dc _ <- read_clipboard;
    read_optional Reserved
  else cret tt.

(** libolecf_compound_object_stream_read, lines 39-1025, with what follows
    on_error, lines 1001-1025. *)
Definition compound_object_read : cio unit :=
  fun w =>
    match read_object w with
    | (Err, w') =>
        match (dc _ <- release Reserved; dc _ <- release Clipboard; release UserType) w' with
        | (Ok _, w'') => (Err, w'')
        | r => r
        end
    | r => r
    end.

(** A call when current_offset is [c]: the result, the new offset, the reads
    of the file and what was allocated and released. *)
Definition compound_object_call (c : Z) : res unit * Z * trace * list mevent :=
  let (r, w) := compound_object_read
                  {| c_offset := c; c_trace := []; c_log := []; c_next := O;
                     c_user := None; c_clipboard := None; c_reserved := None |} in
  (r, c_offset w, c_trace w, c_log w).

End Read.
