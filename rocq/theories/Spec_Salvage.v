(** What the export of a damaged document leaves. *)
From Coq Require Import ZArith List Bool.
From Verif Require Import Base Spec_IO M_Table M_Load M_Stream M_Tree M_Export Spec_Stream Spec_Content Spec_Export
  Spec_Write Spec_Doc Spec_DocExport Spec_Requests.
Import ListNotations.
Open Scope Z_scope.

(** The items [js] of an opened file are those of the first forest, and the
    second has the same items, with other bytes for the streams: [fits] tells
    which, for the entry and the bytes of a stream. *)
Inductive altered (t : tree) (fits : dirent -> list Z -> list Z -> Prop) : list nat -> forest -> forest -> Prop :=
| al_empty : altered t fits [] Empty Empty
| al_stream j js nd n c m s s' r r' :
    nth_error (tr_nodes t) j = Some nd -> fits (n_entry nd) s s' -> altered t fits js r r' ->
    altered t fits (j :: js) (AddStream n c m s r) (AddStream n c m s' r')
| al_storage j js nd n c m a a' r r' :
    nth_error (tr_nodes t) j = Some nd -> altered t fits (n_subs nd) a a' -> altered t fits js r r' ->
    altered t fits (j :: js) (AddStorage n c m a r) (AddStorage n c m a' r').

(** The first bytes of a stream: all of them, or as many buffers of the tool as
    could be read; certainly all if [whole] holds of the entry. *)
Definition rescued (whole : dirent -> Prop) (d : dirent) (s s' : list Z) : Prop :=
  (exists rest, s = s' ++ rest) /\ (s' = s \/ exists k, zlen s' = 32768 * k) /\ (whole d -> s' = s).

(** The bytes of the stream of an entry are delivered, whatever else is not. *)
Definition can_read (rd : reader) (v : volume) (d : dirent) : Prop := delivers rd v d 0 (de_size d).

(** What is left in the directory [dir] of the items when calls of the host
    fail: of a stream nothing, the directory, or the directory and a beginning
    of the data; of a storage nothing, the directory, the directory and the
    empty data, or these and what is left of its items. *)
Inductive left_of (safe : list Z -> list Z) : forest -> list Z -> list (list Z * file_entry) -> Prop :=
| lo_empty dir : left_of safe Empty dir []
| lo_stream n c m s r dir x l :
    (let p := dir ++ 47 :: safe n in
     x = [] \/ x = [(p, Directory)] \/
     exists s' rest, s = s' ++ rest /\ x = [(p, Directory); (data_path p, Data s')]) ->
    left_of safe r dir l -> left_of safe (AddStream n c m s r) dir (x ++ l)
| lo_storage_part n c m a r dir x l :
    (let p := dir ++ 47 :: safe n in
     x = [] \/ x = [(p, Directory)] \/ x = [(p, Directory); (data_path p, Data [])]) ->
    left_of safe r dir l -> left_of safe (AddStorage n c m a r) dir (x ++ l)
| lo_storage n c m a r dir x l :
    (let p := dir ++ 47 :: safe n in left_of safe a p x) ->
    left_of safe r dir l ->
    left_of safe (AddStorage n c m a r) dir
      ((dir ++ 47 :: safe n, Directory) :: (data_path (dir ++ 47 :: safe n), Data []) :: x ++ l).
