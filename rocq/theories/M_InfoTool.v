(** Model of olecfinfo when requests for memory can fail: main of
    olecftools/olecfinfo.c and the functions of olecftools/info_handle.c with
    every allocation and release, and the error paths.  What is printed is
    shared with M_Info.v, opening and closing the file with M_Mem.v, and
    reading property sets with M_PropMem.v.

    Simplified: an object of libbfio, libfguid or libfdatetime is a single
    block.  The calls of libfvalue, libfguid, libfdatetime and libuna that
    convert something request no memory.  Errors of libcerror are not
    represented. *)
From Coq Require Import String ZArith List Bool.
From Verif Require Import Base M_Table M_Header M_Load M_Stream M_Tree M_Open M_Item M_Mount M_File M_Prop
  M_PyProp M_Info M_Mem M_PropMem.
Import ListNotations.
Open Scope Z_scope.

(** What was printed to stdout, root_item of info_handle_t (info_handle.h lines
    38-55) with its node and its block, and the memory. *)
Record ist := {
  i_out : list Z;
  i_root : option (nat * Z);
  i_mem : mst
}.

Definition im (A : Type) : Type := ist -> res A * ist.
Definition qret {A} (a : A) : im A := fun s => (Ok a, s).
Definition qlift {A} (r : res A) : im A := fun s => (r, s).
Definition qbind {A B} (m : im A) (k : A -> im B) : im B :=
  fun s => match m s with
           | (Ok a, s') => k a s'
           | (Err, s') => (Err, s')
           | (Undef, s') => (Undef, s')
           | (NoFuel, s') => (NoFuel, s')
           end.

Notation "'dq' x <- m ; k" := (qbind m (fun x => k))
  (at level 200, x pattern, m at level 100, k at level 200, right associativity).

(** Calls that use the memory. *)
Definition in_memory {A} (m : mm A) : im A :=
  fun s => let (r, m') := m (i_mem s) in (r, {| i_out := i_out s; i_root := i_root s; i_mem := m' |}).

(** Calls that only print and read the file. *)
Definition shown {A} (m : pio A) : im A :=
  fun s => let (r, p) := m {| p_out := i_out s; p_trace := m_trace (i_mem s) |} in
           (r, {| i_out := p_out p; i_root := i_root s;
                  i_mem := {| m_requests := m_requests (i_mem s); m_live := m_live (i_mem s);
                              m_trace := p_trace p |} |}).

(** An object or a buffer; -1 if there is no memory for it. *)
Definition take (mem : memory) : im Z :=
  dq p <- in_memory (alloc mem RTool);
  match p with Some p => qret p | None => qlift Err end.

(** The blocks [ps] are released after [m], and at on_error if it fails. *)
Definition holding {A} (ps : list Z) (m : im A) : im A :=
  fun s => match m s with
           | (Ok a, s') => (dq _ <- in_memory (release_all ps); qret a) s'
           | (Err, s') => (dq _ <- in_memory (release_all ps); qlift Err) s'
           | (Undef, s') => (Undef, s')
           | (NoFuel, s') => (NoFuel, s')
           end.

Definition with_block {A} (mem : memory) (m : im A) : im A :=
  dq p <- take mem;
  holding [p] m.

Section Info.
Variable mem : memory.
Variable lib : infolib.
Variable u : una.
Variable rd : reader.

(** ** info_handle.c *)

(** libolecf_file_get_root_item, lines 1605-1670 of libolecf_file.c, with
    libolecf_item_initialize, lines 42-155 of libolecf_item.c, as it is called
    if root_item is NULL: lines 495-511, 2120-2140 and 2231-2251. *)
Definition root_item (o : option tree) : im (option nat) :=
  fun s => match i_root s with
           | Some (k, _) => (Ok (Some k), s)
           | None =>
               (dq root <- qlift (get_root_item o);
                match root with
                | Some k =>
                    dq p <- take mem;
                    fun s => (Ok (Some k), {| i_out := i_out s; i_root := Some (k, p); i_mem := i_mem s |})
                | None => qret None
                end) s
           end.

(** info_handle_item_fprint, lines 712-770: the loop over the sub items.
    libolecf_item_get_sub_item (lines 739-841 of libolecf_item.c) creates an
    item, which is freed at line 752 or 758. *)
Fixpoint q_sub_items_fprint (k : nat) (t : tree) (one : nat -> im unit) (n : nat) (index : Z) : im unit :=
  match n with
  | O => qret tt
  | S n =>
      dq j <- qlift (get_sub_item t k index);
      dq _ <- with_block mem (one j);
      q_sub_items_fprint k t one n (index + 1)
  end.

(** info_handle_item_fprint, lines 551-782.  The name is allocated at line 612
    and freed at line 699, or at line 778. *)
Fixpoint q_item_fprint (fuel : nat) (e : endian) (t : tree) (k level : nat) : im unit :=
  match fuel with
  | O => qlift NoFuel
  | S fuel =>
      dq d <- qlift (node_value t k);
      dq size <- qlift (match il_name_size lib (de_name d) e with Some n => Ok n | None => Err end);
      dq _ <- with_block mem
        (dq name <- qlift (match il_name lib (de_name d) e size with Some l => Ok l | None => Err end);
         dq _ <- shown (print (indent level));
         dq _ <- shown (name_loop lib (length name + 1) name 0 (u64 (size - 1)));
         shown (print (str " (" ++ integer (de_size d) ++ str " bytes)" ++ [NL])));
      dq n <- qlift (get_number_of_sub_items t k);
      q_sub_items_fprint k t (fun j => q_item_fprint fuel e t j (S level)) (Z.to_nat n) 0
  end.

(** info_handle_items_fprint, lines 476-546. *)
Definition q_items_fprint (e : endian) (o : option tree) : im unit :=
  dq root <- root_item o;
  dq _ <- (match root, o with
           | Some k, Some t =>
               dq _ <- shown (print (str "Storage and stream items:" ++ [NL]));
               q_item_fprint (length (tr_nodes t)) e t k 0
           | _, _ => shown (print (str "No storage and stream items" ++ [NL]))
           end);
  shown (print [NL]).

(** info_handle_property_value_fprint, lines 1262-1570: the line with the data.
    The string is allocated at line 1431 and freed at line 1474, or at line
    1589; the time at lines 1496 and 1554, or 1583. *)
Definition q_value_data_fprint (p : property) : im unit :=
  let values := pl_values (il_prop lib) in
  let t := pv_type p in
  if (t =? 0x1e) || (t =? 0x1f) then
    dq size <- qlift (on_value p (pl_utf8_size (il_prop lib)));
    if SSIZE_MAX <? size then qlift Err
    else
      with_block mem
        (dq s <- qlift (get_utf8 values p size);
         dq _ <- shown (print value_data_prefix);
         dq _ <- shown (print_string s);
         shown (print [NL]))
  else if t =? 0x40 then
    dq x <- qlift (get_filetime values p);
    with_block mem
      (dq s <- qlift (match il_filetime lib x with Some s => Ok s | None => Err end);
       dq _ <- shown (print value_data_prefix);
       dq _ <- shown (print_string s);
       shown (print (str " UTC" ++ [NL])))
  else shown (value_data_fprint lib p).

(** info_handle_property_value_fprint, lines 925-1593. *)
Definition q_value_fprint (class : list Z) (p : property) : im unit :=
  let name := identifier_name class (pv_type p) (pv_id p) in
  dq _ <- shown (print ([TAB] ++ str "Value identifier" ++ [TAB] ++ str ": "));
  dq _ <- shown (match name with Some s => print (str s ++ str " (") | None => pret tt end);
  dq _ <- shown (print (str "0x" ++ print_hex 8 (pv_id p)));
  dq _ <- shown (match name with Some _ => print (str ")") | None => pret tt end);
  dq _ <- shown (print [NL]);
  dq _ <- shown (print ([TAB] ++ str "Value type" ++ [TAB; TAB] ++ str ": " ++ il_type_name lib (pv_type p) ++
                        str " (0x" ++ print_hex 8 (pv_type p) ++ str ")" ++ [NL]));
  dq _ <- q_value_data_fprint p;
  shown (print [NL]).

(** info_handle_property_section_fprint, lines 1624-1710, and
    info_handle_property_set_fprint, lines 1838-1924: the GUID is freed at line
    1699 and line 1913, or at lines 1802 and 2014. *)
Definition q_class_fprint (class : list Z) : im unit :=
  with_block mem (shown (class_fprint lib class)).

(** Lines 1725-1788 and 1939-1993: the loops over parts.  The parts belong to
    the property set: libolecf_property_value_free and
    libolecf_property_section_free free nothing of them, see M_PropFree.v. *)
Fixpoint q_parts_fprint {A} (label : list Z) (get : Z -> res A) (one : A -> im unit) (n : nat) (index : Z)
  : im unit :=
  match n with
  | O => qret tt
  | S n =>
      dq _ <- shown (print ([TAB] ++ label ++ str ": " ++ integer (index + 1) ++ [NL]));
      dq x <- qlift (get index);
      dq _ <- one x;
      q_parts_fprint label get one n (index + 1)
  end.

(** info_handle_property_section_fprint, lines 1598-1807. *)
Definition q_section_fprint (x : section) : im unit :=
  dq _ <- q_class_fprint (sc_class x);
  let n := zlen (sc_properties x) in
  dq _ <- shown (print ([TAB] ++ str "Number of properties" ++ [TAB] ++ str ": " ++ integer n ++ [NL]));
  dq _ <- shown (print [NL]);
  q_parts_fprint (str "Property") (get_property x) (q_value_fprint (sc_class x)) (Z.to_nat n) 0.

(** info_handle_property_set_fprint, lines 1812-2019. *)
Definition q_set_fprint (x : property_set) : im unit :=
  dq _ <- q_class_fprint (ps_class x);
  let n := zlen (ps_sections x) in
  dq _ <- shown (print ([TAB] ++ str "Number of sections" ++ [TAB] ++ str ": " ++ integer n ++ [NL]));
  dq _ <- shown (print [NL]);
  q_parts_fprint (str "Section") (get_section x) q_section_fprint (Z.to_nat n) 0.

(** info_handle_property_set_stream_fprint, lines 2024-2094: the set is freed
    at line 2071 or line 2089. *)
Definition q_set_stream_fprint (v : volume) (d : dirent) (cp : Z) : im unit :=
  dq r <- in_memory (mp_get_set mem (pl_values (il_prop lib)) rd v d cp 0);
  match r with
  | None => qlift Err
  | Some (x, _) => holding (mp_blocks x) (q_set_fprint (plain_set x))
  end.

(** info_handle_document_summary_information_fprint, lines 2099-2205, and
    info_handle_summary_information_fprint, lines 2210-2315: the item of the
    stream is created by libolecf_item_get_sub_item_by_utf8_name and freed at
    the end, or at on_error. *)
Definition q_information_fprint (name heading : list Z) (v : option volume) (o : option tree) (cp : Z)
  : im unit :=
  dq root <- root_item o;
  match root, o, v with
  | Some k, Some t, Some v =>
      dq found <- qlift (sub_node_by_utf8_name u (v_byte_order v) t k name);
      match found with
      | Some j =>
          with_block mem
            (dq d <- qlift (node_value t j);
             dq _ <- shown (print (heading ++ [NL]));
             q_set_stream_fprint v d cp)
      | None => qret tt
      end
  | Some _, _, _ => qlift Undef
  | None, _, _ => qret tt
  end.

Definition q_summary_fprint :=
  q_information_fprint (5 :: str "SummaryInformation") (str "Summary information:").
Definition q_document_summary_fprint :=
  q_information_fprint (5 :: str "DocumentSummaryInformation") (str "Document summary information:").

End Info.

(** ** The handles *)

(** info_handle_t with input_file: the blocks of the info handle, of
    libolecf_internal_file_t and of its IO handle. *)
Record info_handle := {
  ih_struct : Z;
  ih_file : Z;
  ih_io : Z
}.

(** info_handle_initialize, lines 50-132, with libolecf_file_initialize, lines
    48-129 of libolecf_file.c. *)
Definition info_initialize (mem : memory) : mm (option info_handle) :=
  dm a <- alloc mem RTool;
  match a with
  | None => mret None
  | Some a =>
      dm b <- alloc mem RTool;
      match b with
      | None => dm _ <- release a; mret None
      | Some b =>
          dm c <- alloc mem RTool;
          match c with
          | None => dm _ <- release b; dm _ <- release a; mret None
          | Some c => mret (Some {| ih_struct := a; ih_file := b; ih_io := c |})
          end
      end
  end.

(** libolecf_file_open, lines 239-350 of libolecf_file.c, and
    libolecf_file_open_file_io_handle, lines 473-610: the handle of libbfio
    with the file that is open.  libbfio_file_set_name keeps a copy of the
    name.  At on_error the handle is freed. *)
Definition source_open (mem : memory) (u : una) (ev : env) : mm (option (Z * mfile)) :=
  dm b <- alloc mem RTool;
  match b with
  | None => mret None
  | Some b =>
      dm named <- grant mem RTool;
      if named && ev_is_open ev && ev_open ev then
        dm r <- mm_open_read mem u (ev_reader ev);
        match r with
        | None => dm _ <- release b; mret None
        | Some f => mret (Some (b, f))
        end
      else dm _ <- release b; mret None
  end.

(** libolecf_file_close, lines 615-800 of libolecf_file.c: whether it returned
    0.  [None]: the file is not open, lines 636-646. *)
Definition source_close (ev : env) (x : option (Z * mfile)) : mm bool :=
  match x with
  | None => mret false
  | Some (b, f) => dm _ <- release b; dm _ <- mm_close f; mret (ev_close ev)
  end.

(** info_handle_close, lines 329-378. *)
Definition info_close (ev : env) (root : option Z) (x : option (Z * mfile)) : mm bool :=
  dm _ <- release_all (opt_list root);
  source_close ev x.

(** info_handle_free, lines 137-180, with libolecf_file_free, lines 134-195 of
    libolecf_file.c: whether it returned 1. *)
Definition info_free (ev : env) (h : info_handle) (x : option (Z * mfile)) : mm bool :=
  dm ok <- (match x with None => mret true | Some _ => source_close ev x end);
  dm _ <- release (ih_io h);
  dm _ <- release (ih_file h);
  dm _ <- release (ih_struct h);
  mret ok.

(** ** olecfinfo.c *)

(** The state of the opened file as the getters show it; the codepage is that
    of libolecf_io_handle_initialize. *)
Definition shown_file (o : opened) : fstate :=
  let h := o_header o in
  {| fs_io := {| io_major := fh_major_format_version h; io_minor := fh_minor_format_version h;
                 io_sector_size := fh_sector_size h; io_short_sector_size := fh_short_sector_size h;
                 io_minimum_size := fh_sector_stream_minimum_data_size h;
                 io_byte_order := Some (fh_byte_order h);
                 io_start := match o_tree o with Some t => tr_container_start t | None => 0 end;
                 io_codepage := io_codepage io_clear; io_abort := 0 |};
     fs_handle := Some Own; fs_created := true; fs_opened := true;
     fs_data := Some {| fd_msat := o_msat o; fd_sat := o_sat o; fd_ssat := o_ssat o; fd_tree := o_tree o |} |}.

(** main, lines 281-333: the first that fails is followed by its message and
    goto on_error. *)
Fixpoint in_turn (l : list (im unit * string)) : im (option string) :=
  match l with
  | [] => qret None
  | (m, message) :: l =>
      fun s => match m s with
               | (Ok _, s') => in_turn l s'
               | (Err, s') => (Ok (Some message), s')
               | (Undef, s') => (Undef, s')
               | (NoFuel, s') => (NoFuel, s')
               end
  end.

Definition info_steps (mem : memory) (lib : infolib) (u : una) (rd : reader) (s : fstate) (allocation : bool)
  : list (im unit * string) :=
  let cp := io_codepage (fs_io s) in
  [ (shown (file_fprint s), "Unable to print file information.");
    (q_items_fprint mem lib (file_endian s) (file_tree s), "Unable to print file stream and storage items.") ]%string
  ++ (if allocation then [ (shown unallocated_fprint, "Unable to print file unallocated blocks.") ]%string else [])
  ++ [ (q_summary_fprint mem lib u rd (file_volume s) (file_tree s) cp, "Unable to print summary information.");
       (q_document_summary_fprint mem lib u rd (file_volume s) (file_tree s) cp,
        "Unable to print document summary information.") ]%string.

(** What a run leaves: whether the status is EXIT_SUCCESS, what was printed to
    stdout and the lines of main on stderr. *)
Record report := {
  r_success : bool;
  r_out : list Z;
  r_messages : list string
}.

(** main, lines 237-375, after the options.  [codepage]: what
    info_handle_set_ascii_codepage returns for the text after -c.  The info
    handle is freed at lines 344-353, or at on_error, lines 356-375: there the
    file is closed first. *)
Definition info_main (mem : memory) (lib : infolib) (u : una) (ev : env) (allocation : bool)
           (codepage : option (res bool)) : mm report :=
  dm h <- info_initialize mem;                                   (* 237-246 *)
  match h with
  | None => mret {| r_success := false; r_out := []; r_messages := ["Unable to initialize info handle."%string] |}
  | Some h =>
      let failure (root : option Z) (x : option (Z * mfile)) (out : list Z) (messages : list string) : mm report :=
        dm _ <- info_close ev root x;
        dm _ <- info_free ev h None;
        mret {| r_success := false; r_out := out; r_messages := messages |} in
      match codepage with                                        (* 247-268 *)
      | Some Err => failure None None [] ["Unable to set ASCII codepage in info handle."%string]
      | Some Undef => mlift Undef
      | Some NoFuel => mlift NoFuel
      | _ =>
          let notes := match codepage with
                       | Some (Ok false) => ["Unsupported ASCII codepage defaulting to: windows-1252."%string]
                       | _ => []
                       end in
          dm f <- source_open mem u ev;                          (* 269-280 *)
          match f with
          | None => failure None None [] (notes ++ ["Unable to open: source."%string])
          | Some (b, f) =>
              fun s =>
                match in_turn (info_steps mem lib u (ev_reader ev) (shown_file (mf_opened f)) allocation)
                        {| i_out := []; i_root := None; i_mem := s |} with
                | (Ok failed, st) =>
                    let root := option_map snd (i_root st) in
                    (match failed with
                     | Some message => failure root (Some (b, f)) (i_out st) (notes ++ [message])
                     | None =>
                         dm closed <- info_close ev root (Some (b, f));   (* 334-343 *)
                         if closed then
                           dm freed <- info_free ev h None;
                           if freed then mret {| r_success := true; r_out := i_out st; r_messages := notes |}
                           else mret {| r_success := false; r_out := i_out st;
                                        r_messages := notes ++ ["Unable to free info handle."%string] |}
                         else failure None None (i_out st) (notes ++ ["Unable to close info handle."%string])
                     end) (i_mem st)
                | (Err, st) => (Err, i_mem st)
                | (Undef, st) => (Undef, i_mem st)
                | (NoFuel, st) => (NoFuel, i_mem st)
                end
          end
      end
  end.
