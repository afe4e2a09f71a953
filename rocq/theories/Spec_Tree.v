(** Specification of the item tree: what the links of directory entries say,
    independent of how the library builds the tree. *)
From Coq Require Import Ascii String ZArith List Bool Relations Permutation.
From Verif Require Import Base M_Load M_Tree Spec_Load.
Import ListNotations.
Open Scope Z_scope.

(** The entries of [l] with the identifier [id]; at most one if the
    identifiers are distinct. *)
Definition named (l : list dirent) (id : Z) : list dirent :=
  filter (fun d => de_id d =? id) l.

(** The entries the three links of an entry name.  The value FREE means no
    link; so does 0 for the sub link, since slot 0 is the root. *)
Definition sub_targets (l : list dirent) (d : dirent) : list dirent :=
  if (de_sub d =? FREE) || (de_sub d =? 0) then [] else named l (de_sub d).
Definition prev_targets (l : list dirent) (d : dirent) : list dirent :=
  if de_prev d =? FREE then [] else named l (de_prev d).
Definition next_targets (l : list dirent) (d : dirent) : list dirent :=
  if de_next d =? FREE then [] else named l (de_next d).

(** A next link that names no entry. *)
Definition dangling_next (l : list dirent) (d : dirent) : Prop :=
  de_next d <> FREE /\ named l (de_next d) = [].

(** [s] is a sub item of [d]: reachable by previous and next links from the
    entry the sub link of [d] names. *)
Definition sibling_link (l : list dirent) (d s : dirent) : Prop :=
  In s (prev_targets l d) \/ In s (next_targets l d).
Definition sub_item (l : list dirent) (d s : dirent) : Prop :=
  exists c, In c (sub_targets l d) /\ clos_refl_trans _ (sibling_link l) c s.

(** [s] is an item below [d] or [d] itself. *)
Definition below (l : list dirent) : dirent -> dirent -> Prop :=
  clos_refl_trans _ (sub_item l).

(** The unfolding of the links from an entry as a finite tree. *)
Inductive unfolding :=
| Nothing
| Entry (d : dirent) (sub prev next : unfolding).

Fixpoint unfolded (t : unfolding) : list dirent :=
  match t with
  | Nothing => []
  | Entry d a b c => d :: unfolded a ++ unfolded b ++ unfolded c
  end.

(** [unfolds l ds t]: [t] unfolds the links of the only entry of [ds], or is
    nothing if [ds] is empty. *)
Inductive unfolds (l : list dirent) : list dirent -> unfolding -> Prop :=
| un_nothing : unfolds l [] Nothing
| un_entry d a b c :
    unfolds l (sub_targets l d) a ->
    unfolds l (prev_targets l d) b ->
    unfolds l (next_targets l d) c ->
    unfolds l [d] (Entry d a b c).

(** ** The item tree of the library: items are numbered by node. *)
Definition item_entry (t : tree) (k : nat) (d : dirent) : Prop :=
  exists n, nth_error (tr_nodes t) k = Some n /\ n_entry n = d.

Definition item_sub (t : tree) (k j : nat) : Prop :=
  exists n, nth_error (tr_nodes t) k = Some n /\ In j (n_subs n).

Definition tree_entries (t : tree) : list dirent := map n_entry (tr_nodes t).

(** The comparison functions of libuna return. *)
Record una_ok (u : una) : Prop := {
  uo_utf8 : forall a b e, defined (una_utf8_compare u a b e);
  uo_utf16 : forall a b e, defined (una_utf16_compare u a b e)
}.

(** The characters of a string, and the names of the two summary streams: the
    character 5 before and an end of string character after them
    (documentation/OLE Compound File format.asciidoc lines 347-350). *)
Definition text_of (s : string) : list Z :=
  map (fun a => Z.of_nat (nat_of_ascii a)) (list_ascii_of_string s).
Definition summary_stream_name : list Z := 5 :: text_of "SummaryInformation"%string ++ [0].
Definition document_summary_stream_name : list Z :=
  5 :: text_of "DocumentSummaryInformation"%string ++ [0].

(** The comparison of the name of an entry with those of the summary streams
    does not fail. *)
Definition name_comparable (u : una) (e : endian) (d : dirent) : Prop :=
  (zlen (de_name d) = 28 -> una_utf8_compare u document_summary_stream_name (de_name d) e <> Err) /\
  (zlen (de_name d) = 20 -> una_utf8_compare u summary_stream_name (de_name d) e <> Err).

(** An entry without the previous and sub links that name no entry. *)
Definition drop_dangling (l : list dirent) (d : dirent) : dirent :=
  {| de_id := de_id d; de_type := de_type d; de_name := de_name d;
     de_prev := match named l (de_prev d) with [] => FREE | _ => de_prev d end;
     de_next := de_next d;
     de_sub := if de_sub d =? FREE then FREE
               else match named l (de_sub d) with [] => 0 | _ => de_sub d end;
     de_ctime := de_ctime d; de_mtime := de_mtime d;
     de_sector := de_sector d; de_size := de_size d |}.

(** A tree with other entries at its nodes. *)
Definition map_node (g : dirent -> dirent) (n : node) : node :=
  {| n_entry := g (n_entry n); n_parent := n_parent n; n_subs := n_subs n |}.
Definition map_tree (g : dirent -> dirent) (t : tree) : tree :=
  {| tr_nodes := map (map_node g) (tr_nodes t); tr_flags := tr_flags t;
     tr_container_start := tr_container_start t |}.

(** [d] links to [s] by one of its links; [k] is 0, 1, 2 for the sub, the
    previous and the next link. *)
Definition link_targets (l : list dirent) (d : dirent) (k : nat) : list dirent :=
  match k with
  | O => sub_targets l d
  | 1%nat => prev_targets l d
  | 2%nat => next_targets l d
  | _ => []
  end.

(** Reachable from [d] by links of any kind. *)
Definition reachable (l : list dirent) : dirent -> dirent -> Prop :=
  clos_refl_trans _ (fun d s => exists k, In s (link_targets l d k)).
