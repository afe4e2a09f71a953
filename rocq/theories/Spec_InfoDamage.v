(** What olecfinfo tells of a damaged document. *)
From Coq Require Import String ZArith List Bool.
From Verif Require Import Base Spec_IO M_Load M_Stream M_Tree M_Open M_Item M_File M_Info M_PyProp Spec_Tree Spec_Prop Spec_PyProp Spec_Item Spec_Info
  Spec_Write Spec_Doc Spec_DocInfo.
Import ListNotations.
Open Scope Z_scope.

(** What is shown of the first item of the root that is called [q]: what is
    shown of it when nothing is damaged, or, if it is a stream of which [whole]
    does not hold, the heading and a failure. *)
Definition set_left lib text empty date (same : list Z -> list Z -> bool) (doc : document)
           (q heading : list Z) (whole : Prop) (l : list (option (list Z))) : Prop :=
  set_shown lib text empty date same doc q heading l \/
  (exists n c m s, find (fun i => same q (name_of i)) (members (doc_items doc)) = Some (Stream n c m s)) /\
  ~ whole /\ l = [Some heading; None].

(** [P] holds of the entry of the item of the root that is called [q]. *)
Definition of_item (u : una) (v : volume) (t : tree) (q : list Z) (P : dirent -> Prop) : Prop :=
  forall j d, sub_node_by_utf8_name u (v_byte_order v) t 0 q = Ok (Some j) -> item_entry t j d -> P d.

(** The same calls on a file that is read in another way. *)
Definition with_reader (ev : env) (rd : reader) : env :=
  {| ev_is_open := ev_is_open ev; ev_open := ev_open ev; ev_close := ev_close ev; ev_reader := rd |}.
