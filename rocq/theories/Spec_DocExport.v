(** What the export of a document makes. *)
From Coq Require Import ZArith List Bool.
From Verif Require Import Base Spec_IO M_Load M_Tree M_Export Spec_Export Spec_Write Spec_Doc.
Import ListNotations.
Open Scope Z_scope.

(** The directory of each item, named [safe n] for the stored name [n], and in
    it the data: the bytes of a stream, nothing for a storage.  [dir] is the
    directory of the items. *)
Fixpoint exported (safe : list Z -> list Z) (fo : forest) (dir : list Z) : list (list Z * file_entry) :=
  match fo with
  | Empty => []
  | AddStream n _ _ s r =>
      let p := dir ++ 47 :: safe n in
      (p, Directory) :: (data_path p, Data s) :: exported safe r dir
  | AddStorage n _ _ a r =>
      let p := dir ++ 47 :: safe n in
      (p, Directory) :: (data_path p, Data []) :: exported safe a p ++ exported safe r dir
  end.

(** The items of each storage have names of their own. *)
Fixpoint own_names (safe : list Z -> list Z) (fo : forest) : Prop :=
  match fo with
  | Empty => True
  | AddStream n _ _ _ r => ~ In (safe n) (map (fun i => safe (name_of i)) (members r)) /\ own_names safe r
  | AddStorage n _ _ a r =>
      ~ In (safe n) (map (fun i => safe (name_of i)) (members r)) /\ own_names safe a /\ own_names safe r
  end.

(** [safe n] is what the host makes of the stored name [n]; it is a name for a
    directory other than that of the data file. *)
Definition host_name (ho : host) (e : endian) (safe : list Z -> list Z) (n : list Z) : Prop :=
  (exists raw, ho_name ho n e = Some raw /\ ho_sanitize ho raw = Some (safe n)) /\
  ~ In 47 (safe n) /\
  ~ In (safe n) [[46]; [46; 46]; [83; 116; 114; 101; 97; 109; 68; 97; 116; 97; 46; 98; 105; 110]].
