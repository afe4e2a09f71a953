(** Model of olecfexport when requests for memory can fail: main of
    olecftools/olecfexport.c from the export handle on, and the functions of
    olecftools/export_handle.c and olecftools/log_handle.c with every allocation
    and release, and the error paths.  The calls to the host and the log are
    shared with M_Export.v and M_ExportTool.v, opening and closing the source
    with M_Mem.v and M_InfoTool.v.

    Simplified as in M_ExportTool.v.  A file of libcfile is a single block, and
    a string that libcpath makes is one.  The stream of the log is memory of the
    C library and not counted.  If the name of an item cannot be converted, that
    shows after its buffer was allocated.  Errors of libcerror are not
    represented. *)
From Coq Require Import String ZArith List Bool.
From Verif Require Import Base M_Table M_Header M_Load M_Stream M_Tree M_Open M_Item M_Mount M_File M_Export Spec_Tree M_Getopt
  M_ExportTool M_Mem M_InfoTool.
Import ListNotations.
Open Scope Z_scope.

(** The host with the reads of the source, the lines of the log so far, and the
    memory. *)
Record est := {
  e_host : xstate;
  e_log : list log_line;
  e_mem : mst
}.

Definition em (A : Type) : Type := est -> res A * est.
Definition eret {A} (a : A) : em A := fun s => (Ok a, s).
Definition elift {A} (r : res A) : em A := fun s => (r, s).
Definition ebind {A B} (m : em A) (k : A -> em B) : em B :=
  fun s => match m s with
           | (Ok a, s') => k a s'
           | (Err, s') => (Err, s')
           | (Undef, s') => (Undef, s')
           | (NoFuel, s') => (NoFuel, s')
           end.

(** Calls to the host, lines of the log, and calls that use the memory. *)
Definition hosted {A} (m : xio A) : em A :=
  fun s => let (r, w) := m (e_host s) in (r, {| e_host := w; e_log := e_log s; e_mem := e_mem s |}).
Definition logged (x : log_line) : em unit :=
  fun s => (Ok tt, {| e_host := e_host s; e_log := e_log s ++ [x]; e_mem := e_mem s |}).
Definition remembered {A} (m : mm A) : em A :=
  fun s => let (r, m') := m (e_mem s) in (r, {| e_host := e_host s; e_log := e_log s; e_mem := m' |}).

(** goto on_error: the blocks whose pointers are not NULL are released, and -1
    is returned. *)
Definition on_error {A} (held : list Z) : em A :=
  ebind (remembered (release_all held)) (fun _ => elift Err).
(** A call that can fail, with goto on_error. *)
Definition attempt {A B} (held : list Z) (m : em A) (k : A -> em B) : em B :=
  fun s => match m s with
           | (Ok a, s') => k a s'
           | (Err, s') => on_error held s'
           | (Undef, s') => (Undef, s')
           | (NoFuel, s') => (NoFuel, s')
           end.
(** An allocation, with goto on_error. *)
Definition obtain {A} (mem : memory) (held : list Z) (k : Z -> em A) : em A :=
  ebind (remembered (alloc mem RTool)) (fun p => match p with Some p => k p | None => on_error held end).
(** memory_free *)
Definition drop {A} (p : Z) (k : em A) : em A :=
  ebind (remembered (release p)) (fun _ => k).

Section Export.
Variable mem : memory.
Variable ho : host.
Variable rd : reader.
Variable v : volume.
Variable t : tree.

(** ** export_handle.c *)

(** export_handle_export_sub_items, lines 1374-1507: the item is got, line
    1438, exported, and freed, line 1493.  If it cannot be got, -1 is returned;
    if it cannot be exported, it is skipped. *)
Fixpoint e_sub_items (one : nat -> Z -> list Z -> em unit) (index : Z) (subs : list nat) (dir : list Z) : em unit :=
  match subs with
  | [] => eret tt
  | k :: subs =>
      obtain mem [] (fun item s =>
        match one k index dir s with
        | (Ok _, s') => drop item (e_sub_items one (index + 1) subs dir) s'
        | (Err, s') =>
            ebind (logged (Unable (index + 1))) (fun _ => drop item (e_sub_items one (index + 1) subs dir)) s'
        | r => r
        end)
  end.

(** export_handle_export_item, lines 1289-1317: the data file is closed and
    freed, the sub items are exported and item_path is freed. *)
Definition e_finish (one : nat -> Z -> list Z -> em unit) (k : nat) (path : list Z) (file item_path : Z) : em unit :=
  attempt [file; item_path] (hosted (close_file ho)) (fun _ =>
  drop file (
  attempt [item_path] (hosted (xlift (sub_nodes t k))) (fun subs =>
  attempt [item_path] (e_sub_items one 0 subs path) (fun _ =>
  drop item_path (eret tt))))).

(** Lines 1154-1288: the data file is made and written. *)
Definition e_data (one : nat -> Z -> list Z -> em unit) (k : nat) (d : dirent) (path : list Z)
           (target_path item_path : Z) : em unit :=
  let target := path_join path stream_data_name in
  obtain mem [target_path; item_path] (fun file =>
  attempt [file; target_path; item_path] (hosted (open_write ho target)) (fun _ =>
  drop target_path (
  if 0 <? de_size d then
    obtain mem [file; item_path] (fun buffer =>
    attempt [buffer; file; item_path]
      (hosted (copy_loop ho rd v (Z.to_nat (de_size d / BUFFER_SIZE) + 2) d target 0 (de_size d))) (fun _ =>
    drop buffer (e_finish one k path file item_path)))
  else e_finish one k path file item_path))).

(** Lines 1052-1153: the directory is made, and the name of the data file. *)
Definition e_directory (one : nat -> Z -> list Z -> em unit) (k : nat) (d : dirent) (dir name : list Z)
           (item_name item_path : Z) : em unit :=
  drop item_name (
  attempt [item_path] (hosted (make_directory ho dir name)) (fun _ =>
  attempt [item_path] (logged (Created (path_join dir name))) (fun _ =>
  obtain mem [item_path] (fun target_path =>
  attempt [target_path; item_path] (hosted (file_exists ho (path_join dir name) stream_data_name)) (fun there =>
  if there then
    attempt [target_path; item_path] (logged (Skipping (path_join (path_join dir name) stream_data_name))) (fun _ =>
    drop target_path (drop item_path (eret tt)))
  else e_data one k d (path_join dir name) target_path item_path))))).

(** export_handle_export_item, lines 744-1369; the name of the item is replaced
    by the sanitized one at lines 898-905. *)
Fixpoint e_item (fuel : nat) (k : nat) (index : Z) (dir : list Z) : em unit :=
  match fuel with
  | O => elift NoFuel
  | S fuel =>
      attempt [] (hosted (xlift (node_value t k))) (fun d =>
      attempt [] (logged (Processing index dir)) (fun _ =>
      obtain mem [] (fun item_name =>
      match ho_name ho (de_name d) (v_byte_order v) with
      | None => on_error [item_name]
      | Some raw =>
          match ho_sanitize ho raw with
          | None => on_error [item_name]
          | Some name =>
              obtain mem [item_name] (fun sanitized_name =>
              drop item_name (
              obtain mem [sanitized_name] (fun item_path =>
              attempt [item_path; sanitized_name] (hosted (file_exists ho dir name)) (fun there =>
              if there then
                drop item_path (
                attempt [sanitized_name] (hosted (xlift (item_name_again (zlen name + 1) index))) (fun name =>
                attempt [sanitized_name] (logged (Defaulting name)) (fun _ =>
                obtain mem [sanitized_name] (fun item_path =>
                e_directory (e_item fuel) k d dir name sanitized_name item_path))))
              else e_directory (e_item fuel) k d dir name sanitized_name item_path))))
          end
      end)))
  end.

End Export.

(** export_handle_export_file, lines 1512-1622, with libolecf_file_get_root_item:
    the root item is one block. *)
Definition e_file (mem : memory) (ho : host) (rd : reader) (v : volume) (o : option tree) (p n : list Z) : em unit :=
  attempt [] (hosted (make_directory ho p n)) (fun _ =>
  attempt [] (logged (Created (path_join p n))) (fun _ =>
  match o with
  | None => eret tt
  | Some t =>
      obtain mem [] (fun root_item =>
      attempt [root_item]
        (attempt [] (hosted (xlift (sub_nodes t O))) (fun subs =>
           e_sub_items mem (e_item mem ho rd v t (List.length (tr_nodes t))) 0 subs (path_join p n))) (fun _ =>
      drop root_item (eret tt)))
  end)).

(** ** olecfexport.c *)

(** export_handle_open_input, lines 660-704 of export_handle.c: [source_open].
    The reads of the source are in the state of the host. *)
Definition e_open (mem : memory) (u : una) (ev : env) : em (option (Z * mfile)) :=
  fun s =>
    let m := e_mem s in
    let (r, m') := source_open mem u ev {| m_requests := m_requests m; m_live := m_live m; m_trace := x_trace (e_host s) |} in
    (r, {| e_host := {| x_disk := x_disk (e_host s); x_calls := x_calls (e_host s); x_trace := m_trace m' |};
           e_log := e_log s; e_mem := m' |}).

(** Lines 334-397: the codepage, the source, the export and
    export_handle_close, lines 709-741 of export_handle.c, which at on_error is
    done at lines 450-452.  Opening, reading and closing the file of libbfio is
    in the reader. *)
Definition e_work (mem : memory) (m : machine) (s : settings) (p n : list Z) : em unit :=
  attempt [] (hosted (match st_codepage s with
                      | None => xret tt
                      | Some c => dx _ <- xlift (ma_codepage m c); xret tt
                      end)) (fun _ =>
  let rd := ma_reader m (full_path m (st_source s)) in
  let ev := {| ev_is_open := true; ev_open := true; ev_close := true; ev_reader := rd |} in
  ebind (e_open mem (ma_una m) ev) (fun f =>
  match f with
  | None => elift Err
  | Some (b, f) =>
      fun w =>
        let o := mf_opened f in
        match e_file mem (ma_host m) rd (opened_volume o) (o_tree o) p n w with
        | (Ok _, w') => ebind (remembered (source_close ev (Some (b, f)))) (fun _ => eret tt) w'
        | (Err, w') => ebind (remembered (source_close ev (Some (b, f)))) (fun _ => elift Err) w'
        | r => r
        end
  end)).

(** Lines 312-428 and on_error, lines 430-457, with the log handle and the
    export handle, of which [held] are the blocks.  After the export
    export_handle_free, line 398, comes before log_handle_close, line 408;
    at on_error it is the other way. *)
Definition e_logged (mem : memory) (m : machine) (s : settings) (p n : list Z) (held : list Z) : em unit :=
  obtain mem held (fun log_handle =>
  attempt (log_handle :: held) (hosted (log_open m (st_log s))) (fun _ w =>
  let text w' := concat (map line_text (skipn (List.length (e_log w)) (e_log w'))) in
  match e_work mem m s p n w with
  | (Ok _, w') =>
      match ebind (remembered (release_all held)) (fun _ => hosted (log_close m (st_log s) (text w'))) w' with
      | (Ok _, w'') => drop log_handle (eret tt) w''
      | (_, w'') => (Undef, w'')
      end
  | (Err, w') =>
      on_error (log_handle :: held) (snd (hosted (log_close m (st_log s) (text w')) w'))
  | r => r
  end)).

(** Lines 264-457: export_handle_initialize, lines 42-128 of export_handle.c,
    export_handle_set_target_path, lines 287-427, and
    export_handle_create_items_export_path, lines 592-655, with
    export_handle_set_export_path, lines 432-587.  export_handle_free: lines
    133-187. *)
Definition e_run (mem : memory) (m : machine) (s : settings) : em unit :=
  obtain mem [] (fun handle =>
  obtain mem [handle] (fun file =>
  obtain mem [file; handle] (fun io =>
  match st_target s with
  | None | Some [] => on_error [io; file; handle]
  | Some target =>
      obtain mem [io; file; handle] (fun target_path =>
      obtain mem [io; file; target_path; handle] (fun export_path =>
      let held := [io; file; target_path; export_path; handle] in
      attempt held (hosted (xlift (items_export_path target))) (fun e =>
      let (p, n) := split_last (full_path m e) in
      attempt held (hosted (file_exists (ma_host m) p n)) (fun there =>
      if there then on_error held
      else e_logged mem m s p n held))))
  end))).
