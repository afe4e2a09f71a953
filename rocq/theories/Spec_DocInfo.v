(** What olecfinfo tells of a document. *)
From Coq Require Import String ZArith List Bool.
From Verif Require Import Base Spec_IO M_Header M_Tree M_Info M_PyProp Spec_Tree Spec_Prop Spec_PyProp Spec_Info Spec_Write Spec_Doc.
Import ListNotations.
Open Scope Z_scope.

(** Names, sizes and sub items of the items, where [name n] is the text of the
    stored name [n]; a storage has the size 0. *)
Fixpoint pictures (name : list Z -> list Z) (fo : forest) : list picture :=
  match fo with
  | Empty => []
  | AddStream n _ _ s r => Picture (name n) (zlen s) [] :: pictures name r
  | AddStorage n _ _ a r => Picture (name n) 0 (pictures name a) :: pictures name r
  end.

(** The root has the size of its entry, that of the stream of short sectors. *)
Definition portrait (name : list Z -> list Z) (size : Z) (doc : document) : picture :=
  Picture (name (doc_name doc)) size (pictures name (doc_items doc)).

(** What is shown of the first item of the root that is called [q]: nothing if
    there is none, the set that is in its bytes, or the heading and a failure if
    it is a storage or there is no set in it. *)
Definition set_shown lib text empty date (same : list Z -> list Z -> bool) (doc : document)
           (q heading : list Z) (l : list (option (list Z))) : Prop :=
  match find (fun i => same q (name_of i)) (members (doc_items doc)) with
  | None => l = []
  | Some (Storage _ _ _ _) => l = [Some heading; None]
  | Some (Stream _ _ _ s) =>
      (exists x, set_at s x /\ l = Some heading :: set_pieces lib text empty date 1252 x) \/
      ((forall x, ~ set_at s x) /\ l = [Some heading; None])
  end.

(** The lines on the file and its items. *)
Definition overview (signed allocation : bool) (h : file_header) (x : picture) : list Z :=
  fst (printed (file_pieces h)) ++ text_of "Storage and stream items:"%string ++ [10] ++
  picture_text signed 0 x ++ [10] ++ fst (printed (allocation_pieces allocation)).
