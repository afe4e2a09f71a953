(** Property theorem on the lifetime of directory entries (C25). *)
From Coq Require Import ZArith List Bool Lia.
From Verif Require Import Base Spec_IO Spec_Load Spec_Tree M_Table M_Load M_Tree M_Open M_Free Spec_Free L_Free X_Stream X_File P_Tree.
Import ListNotations.
Open Scope Z_scope.

(** Opening gives the result of [open_read] and performs its reads.  If it
    fails every entry allocated was released once.  If it succeeds every entry
    read was allocated, exactly the entries of the items are not released, and
    closing releases them so that every entry is released once. *)
Theorem C25_released_once :
  forall u rd, una_ok u -> io_bytes rd ->
    let '((r, m), t) := m_open_read u rd [] in
    open_read u rd [] = (erase r, t) /\
    match r with
    | Ok (o, l) =>
        (forall d, In d (o_entries o) -> In (Alloc (de_id d)) m) /\
        (forall p, held m p <-> exists tr d, o_tree o = Some tr /\ In d (tree_entries tr) /\ p = de_id d) /\
        (forall p, In (Alloc p) m \/ In (Release p) m -> once m p \/ held m p) /\
        exists c, m_close l (o_tree o) = Ok c /\ balanced (m ++ c)
    | Err => balanced m
    | _ => False
    end.
Proof. exact released_once. Qed.
Print Assumptions C25_released_once.

Definition slots_log (slots : list (list Z)) := m_open_read xf_una (file_reader (slots_file slots)) [].

(** A file with the entries 1, 2 and 4 below the root, the entry 5 that no link
    names, and empty slots. *)
Example C25_case :
  exists o l t, slots_log [slot_root; xf_slot Little [97; 98] 2 FREE FREE FREE 0 70;
      xf_slot Little [99; 100] 2 1 4 FREE 4 600; zeros 128;
      xf_slot Little [115; 116] 1 FREE FREE FREE 0 0; xf_slot Little [120; 121] 2 FREE FREE FREE 0 10; zeros 256]
    = ((Ok (o, l), [Alloc 0; Alloc 1; Alloc 2; Alloc 3; Release 3; Alloc 4; Alloc 5; Alloc 6; Release 6; Alloc 7; Release 7;
                    Release 5]), t) /\
    m_close l (o_tree o) = Ok [Release 1; Release 2; Release 4; Release 0].
Proof. eexists. eexists. eexists. split; [vm_compute; reflexivity|]. vm_compute. reflexivity. Qed.

(** A slot with a name size of more than 128, and a tree that can not be
    built: the entry 1 is named twice. *)
Example C25_case_failures :
  (exists t, slots_log [slot_root; zeros 128; xf_slot Little [99; 100] 2 1 4 FREE 4 600;
      zeros 64 ++ [0; 1; 2] ++ zeros 61; zeros 512]
    = ((Err, [Alloc 0; Alloc 1; Release 1; Alloc 2; Alloc 3; Release 3; Release 0; Release 2]), t)) /\
  (exists t, slots_log [slot_root; xf_slot Little [97; 98] 2 FREE FREE FREE 0 70;
      xf_slot Little [99; 100] 2 1 1 FREE 4 600; zeros 640]
    = ((Err, [Alloc 0; Alloc 1; Alloc 2; Alloc 3; Release 3; Alloc 4; Release 4; Alloc 5; Release 5; Alloc 6; Release 6;
              Alloc 7; Release 7; Release 0; Release 1; Release 2]), t)).
Proof. split; eexists; vm_compute; reflexivity. Qed.
