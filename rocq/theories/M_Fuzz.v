(** Model of the targets for fuzzing: LLVMFuzzerTestOneInput of
    ossfuzz/file_fuzzer.cc and of ossfuzz/item_fuzzer.cc, with requests for
    memory that can fail.  Opening and closing the file is shared with M_Mem.v.

    Simplified: the handle of libbfio is a single block, and its calls request
    no other memory.  Errors of libcerror are not represented: the targets pass
    NULL. *)
From Coq Require Import ZArith List Bool.
From Verif Require Import Base M_Table M_Header M_Load M_Stream M_Tree M_Open M_Item M_File M_Mem.
Import ListNotations.
Open Scope Z_scope.

(** The value of the functions below is the list of what the calls of the
    target return, in the order of the calls.  The target itself returns 0 in
    every case (lines 57 and 95 of file_fuzzer.cc, lines 60 and 129 of
    item_fuzzer.cc). *)
Definition target : Type := mm (list Z).

Section Fuzz.
Variable mem : memory.

(** libolecf_file_initialize, lines 48-129 of libolecf_file.c, with
    libolecf_io_handle_initialize: two blocks. *)
Definition fuzz_initialize : mm (option (Z * Z)) :=
  dm f <- alloc mem RTool;
  match f with
  | None => mret None
  | Some f =>
      dm i <- alloc mem RTool;
      match i with
      | None => dm _ <- release f; mret None
      | Some i => mret (Some (f, i))
      end
  end.

(** libolecf_file_open_file_io_handle, lines 473-610 of libolecf_file.c, for a
    handle that is not open yet. *)
Definition fuzz_open (u : una) (ev : env) : mm (option mfile) :=
  if ev_is_open ev && ev_open ev then mm_open_read mem u (ev_reader ev) else mret None.

(** libolecf_item_get_sub_item for the first sub item and libolecf_item_free:
    lines 98-108 of item_fuzzer.cc.  The item is one block:
    libolecf_item_initialize, lines 42-155 of libolecf_item.c. *)
Definition first_sub_item (t : tree) (k : nat) : target :=
  match get_sub_item t k 0 with
  | Ok _ =>
      dm p <- alloc mem RTool;
      match p with
      | Some p => dm _ <- release p; mret [1; 1]
      | None => mret [-1]
      end
  | Err => mret [-1]
  | Undef => mlift Undef
  | NoFuel => mlift NoFuel
  end.

(** Lines 84-114 of item_fuzzer.cc: libolecf_file_get_root_item (lines
    1605-1670 of libolecf_file.c),
    libolecf_item_get_number_of_sub_items, the sub item and
    libolecf_item_free. *)
Definition root_item_used (o : option tree) : target :=
  match get_root_item o, o with
  | Ok (Some k), Some t =>
      dm p <- alloc mem RTool;
      match p with
      | None => mret [-1]
      | Some p =>
          dm l <- (match get_number_of_sub_items t k with
                   | Ok n =>
                       if n >? 0 then dm l <- first_sub_item t k; mret (1 :: l)
                       else mret [1]
                   | Err => mret [-1]
                   | Undef => mlift Undef
                   | NoFuel => mlift NoFuel
                   end);
          dm _ <- release p;
          mret (1 :: l ++ [1])
      end
  | Ok _, _ => mret [0]
  | Err, _ => mret [-1]
  | Undef, _ => mlift Undef
  | NoFuel, _ => mlift NoFuel
  end.

(** Lines 46-96 of file_fuzzer.cc and lines 46-130 of item_fuzzer.cc; [used] is
    what is done with the open file.  [set] says whether
    libbfio_memory_range_set succeeds: not if there are no data.
    libolecf_file_free after libolecf_file_close, or without an open file, does
    not close again: lines 134-195 of libolecf_file.c. *)
Definition fuzz (used : mfile -> target) (u : una) (ev : env) (set : bool) : target :=
  dm h <- alloc mem RTool;
  match h with
  | None => mret [-1]
  | Some h =>
      dm l <- (if set then
                 dm f <- fuzz_initialize;
                 match f with
                 | None => mret [1; -1]
                 | Some (f, i) =>
                     dm x <- fuzz_open u ev;
                     dm l <- (match x with
                              | None => mret [-1]
                              | Some x =>
                                  dm l <- used x;
                                  dm _ <- mm_close x;
                                  mret (1 :: l ++ [if ev_close ev then 0 else -1])
                              end);
                     dm _ <- release i;
                     dm _ <- release f;
                     mret (1 :: 1 :: l ++ [1])
                 end
               else mret [-1]);
      dm _ <- release h;
      mret (1 :: l ++ [1])
  end.

(** ossfuzz/file_fuzzer.cc, lines 46-96. *)
Definition file_fuzzer : una -> env -> bool -> target := fuzz (fun _ => mret []).

(** ossfuzz/item_fuzzer.cc, lines 46-130. *)
Definition item_fuzzer : una -> env -> bool -> target := fuzz (fun x => root_item_used (o_tree (mf_opened x))).

(** The engine calls the target again and again in one process: one run for
    each input. *)
Fixpoint fuzz_runs (one : una -> env -> bool -> target) (u : una) (inputs : list (env * bool)) : mm (list (list Z)) :=
  match inputs with
  | [] => mret []
  | (ev, set) :: inputs =>
      dm l <- one u ev set;
      dm ls <- fuzz_runs one u inputs;
      mret (l :: ls)
  end.

End Fuzz.
