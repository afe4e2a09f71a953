(** What a document mounted on Windows looks like. *)
From Coq Require Import ZArith List Bool.
From Verif Require Import Base Spec_IO M_Header M_Table M_Load M_Stream M_Tree M_Open M_Item
  Spec_Stream Spec_Load Spec_Tree Spec_Content Spec_Item M_Mount M_WMount M_Fuse M_Dokan Spec_Mount Spec_WMount Spec_Fuse Spec_Dokan
  Spec_Write Spec_Doc Spec_DocMount.
Import ListNotations.
Open Scope Z_scope.

(** [m] is the mount of a file with the document [doc].  The characters of the
    stored name [n] are [chars n], and libuna finds a name equal to another if
    the characters are the same. *)
Record wmounts (m : mounted) (rd : reader) (h : file_header) (root : dirent) (doc : document) (chars : list Z -> list Z) : Prop := {
  wm_holds : holds (mt_una m) rd h root doc;
  wm_ok : wmount_ok m;
  wm_mounted : forall o t, open_read (mt_una m) rd [] = (Ok o, t) ->
      mt_volume m = opened_volume o /\ mt_tree m = o_tree o;
  wm_names : names_ok (fun n => path_name (chars n) /\
      exists l, mt_name m n (fh_byte_order h) = Some l /\ text (mt_codec m) (chars n) l) (doc_items doc);
  wm_compare : forall cs l, path_name cs -> text (mt_codec m) cs l ->
      names_ok (fun n => una_utf16_compare (mt_una m) l n (fh_byte_order h) = Ok (same_list cs (chars n))) (doc_items doc)
}.

(** The path of names below the mount point: [f] is the text for [cs] in which
    characters that Windows keeps out of file names are escaped. *)
Definition wmount_path_of (m : mounted) (css : list (list Z)) (path : list Z) : Prop :=
  Forall path_name css /\
  Forall (fun cs => exists l, text (mt_codec m) cs l /\ zlen l <= 461168601842738790) css /\
  exists fs, Forall2 (wfile_name_text (mt_codec m)) css fs /\ path = wmount_path fs /\ zlen path < SSIZE_MAX / 2.

Definition place_ctime (doc : document) (p : place) : Z :=
  match p with
  | Top => doc_ctime doc
  | At (Stream _ t _ _) | At (Storage _ t _ _) => t
  end.

(** The information on a place, in a structure that held [before]. *)
Record wlooks (m : mounted) (root : dirent) (doc : document) (p : place) (before i : information) : Prop := {
  wl_attributes : in_attributes i = if is_stream_place p then 128 else 16;
  wl_created : halves (place_ctime doc p) (in_created i);
  wl_accessed : halves (mt_time m) (in_accessed i);
  wl_written : halves (place_mtime doc p) (in_written i);
  wl_size : place_size root p <> 0 -> halves (place_size root p) (in_size i);
  wl_no_size : place_size root p = 0 -> in_size i = in_size before;
  wl_others : in_serial_number i = in_serial_number before /\ in_links i = in_links before /\ in_index i = in_index before
}.

(** The entry of a place in a listing. *)
Record wfinds (m : mounted) (root : dirent) (doc : document) (p : place) (name short : list Z) (x : find_data) : Prop := {
  wf_attributes : fd_attributes x = if is_stream_place p then 128 else 16;
  wf_created : halves (place_ctime doc p) (fd_created x);
  wf_accessed : halves (mt_time m) (fd_accessed x);
  wf_written : halves (place_mtime doc p) (fd_written x);
  wf_size : halves (place_size root p) (fd_size x);
  wf_name : fd_name x = name;
  wf_short : fd_short_name x = short
}.

(** The listing of a place: the items in order, with the file names; the name
    is the short name too if it has one unit. *)
Definition wlisted (m : mounted) (root : dirent) (doc : document) (chars : list Z -> list Z) (p : place) (l : find_listing) : Prop :=
  exists x rest, l = x :: dots_entry :: rest /\ wfinds m root doc p [46] [46] x /\
    Forall2 (fun i y => exists n f, text (mt_codec m) (chars (name_of i)) n /\ wfile_name_text (mt_codec m) (chars (name_of i)) f /\
               wfinds m root doc (At i) f (if zlen n =? 1 then f else []) y)
            (members (below doc p)) rest.

(** The names of the items of a place have at most 25 units. *)
Definition short_members (m : mounted) (doc : document) (chars : list Z -> list Z) (p : place) : Prop :=
  Forall (fun i => forall n, text (mt_codec m) (chars (name_of i)) n -> zlen n <= 25) (members (below doc p)).

(** The callback opens a file for reading. *)
Definition opens_to_read (b : dokan_build) (k : nat) (path : list Z) (op : dokan_op) : Prop :=
  (exists access disposition, op = DkCreate k path access disposition /\ Z.testbit access 30 = false /\
     (disposition = 3 \/ (db_old b = false /\ disposition = 1))) \/
  (db_old b = true /\ op = DkOpenDirectory k path).
