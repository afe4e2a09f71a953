(** Model of the lifetime of a property set in memory: the functions of
    M_Prop.v with a log of allocations and releases, and
    libolecf_property_set_free.

    Logged are the structures of libolecf: the set
    (libolecf_property_set_initialize and _free, libolecf_property_set.c lines
    46-128 and 133-177), its sections (libolecf_property_section_initialize and
    libolecf_internal_property_section_free, libolecf_property_section.c lines
    47-129 and 163-205), their values (libolecf_property_value_initialize and
    libolecf_internal_property_value_free, libolecf_property_value.c lines
    43-111 and 145-187) and the data_value of a value (libfvalue, with the
    buffer it was given).  The other buffers of
    libolecf_property_value_read_data are freed there in all cases (lines
    713-716 and 915-927) and not logged, nor are the arrays of libcdata, which
    live as long as the structure that they are in. *)
From Coq Require Import ZArith List Bool.
From Verif Require Import Base M_Table M_Load M_Stream M_Prop.
Import ListNotations.
Open Scope Z_scope.

(** A structure is named by its place: the set, its section [k], the value [j]
    of that section and the data_value of that. *)
Inductive part :=
| PartSet
| PartSection (k : nat)
| PartValue (k j : nat)
| PartData (k j : nat).

Inductive pevent :=
| Make (p : part)
| Drop (p : part).

(** A computation with a log. *)
Definition lio (A : Type) : Type := trace -> list pevent -> (res A * list pevent) * trace.

Definition lret {A} (a : A) : lio A := fun t m => ((Ok a, m), t).
Definition lbind {A B} (x : lio A) (k : A -> lio B) : lio B := fun t m =>
  match x t m with
  | ((Ok a, m'), t') => k a t' m'
  | ((Err, m'), t') => ((Err, m'), t')
  | ((Undef, m'), t') => ((Undef, m'), t')
  | ((NoFuel, m'), t') => ((NoFuel, m'), t')
  end.
Definition llift {A} (x : io A) : lio A := fun t m => let (r, t') := x t in ((r, m), t').
Definition ltell (l : list pevent) : lio unit := fun t m => ((Ok tt, m ++ l), t).
(** The releases [l] of the on_error part of a function. *)
Definition on_error {A} (l : list pevent) (x : lio A) : lio A := fun t m =>
  match x t m with
  | ((Err, m'), t') => ((Err, m' ++ l), t')
  | y => y
  end.

Notation "'dlo' x <- m ; k" := (lbind m (fun x => k))
  (at level 200, x pattern, m at level 100, k at level 200, right associativity).

(** libolecf_internal_property_value_free, lines 145-187. *)
Definition value_free (k j : nat) (p : property) : list pevent :=
  match pv_value p with Some _ => [Drop (PartData k j)] | None => [] end ++ [Drop (PartValue k j)].

(** libcdata_array_free with a function for the entries: from the first to the
    last. *)
Fixpoint array_free {A} (free : nat -> A -> list pevent) (j : nat) (l : list A) : list pevent :=
  match l with
  | [] => []
  | x :: l' => free j x ++ array_free free (S j) l'
  end.

(** libolecf_internal_property_section_free, lines 163-205 of
    libolecf_property_section.c. *)
Definition section_free (k : nat) (ps : list property) : list pevent :=
  array_free (value_free k) 0 ps ++ [Drop (PartSection k)].

(** libolecf_property_set_free, lines 133-177 of libolecf_property_set.c, with
    the sections of the array. *)
Definition set_free (l : list section) : list pevent :=
  array_free (fun k s => section_free k (sc_properties s)) 0 l ++ [Drop PartSet].

Section Read.
Variable lib : fvlib.
Variable rd : reader.
Variable v : volume.
Variable d : dirent.
Variable cp : Z.

(** The loop of libolecf_property_section_read, lines 568-742, of the section
    [k]; on_error at lines 745-752 frees the value that is not in the array
    yet. *)
Fixpoint l_properties_loop (n : nat) (k j : nat) (e : endian) (base c pos : Z) (acc : list property)
  : lio (list property * Z) :=
  match n with
  | O => lret (acc, c)
  | S n =>
      dlo c <- llift (pseek d c pos);
      dlo _ <- ltell [Make (PartValue k j)];                    (* 590 *)
      dlo (p, pos, c) <- on_error [Drop (PartValue k j)] (llift (
        dio (id, rel, c) <- read_list_entry rd v d e c;
        if rel <=? 8 then ierr
        else
          dio pos <- ilift (stream_get_offset d c);
          dio (t, f, c) <- read_data lib rd v d cp e c (u32 (base + rel));
          iret ({| pv_id := id; pv_type := t; pv_value := f |}, pos, c)));
      dlo _ <- ltell (match pv_value p with
                      | Some _ => [Make (PartData k j)]         (* 877 of property_value.c *)
                      | None => []
                      end);
      l_properties_loop n k (S j) e base c pos (acc ++ [p])
  end.

(** libolecf_property_section_read, lines 434-753. *)
Definition l_section_read (k : nat) (e : endian) (c base : Z) : lio (list property * Z) :=
  dlo (n, c) <- llift (
    dio c <- pseek d c base;
    dio (b, c) <- pread rd v d c 8;
    dio size <- ilift (get_u32 e b 0);
    dio n <- ilift (get_u32 e b 4);
    iret (n, c));
  l_properties_loop (Z.to_nat n) k 0 e base c (base + 8) [].

(** The loop of libolecf_property_set_read, lines 451-553.  A section that can
    not be read is handed to libolecf_property_section_free (lines 556-562),
    which frees nothing: "The property_section is managed elsewhere"
    (libolecf_property_section.c lines 134-158).  Then
    libolecf_property_set_stream_get_set frees the set with the sections that
    are in the array (lines 110-117 of libolecf_property_set_stream.c). *)
Fixpoint l_sections_loop (n : nat) (k : nat) (e : endian) (c pos : Z) (acc : list section)
  : lio (list section * Z) :=
  match n with
  | O => lret (acc, c)
  | S n =>
      dlo _ <- ltell [Make (PartSection k)];                    (* 455 *)
      dlo (s, pos, c) <- on_error (set_free acc) (
        dlo (class, base, pos, c) <- llift (
          dio c <- pseek d c pos;
          dio (class, base, c) <- section_list_entry rd v d e c;
          dio pos <- ilift (stream_get_offset d c);
          iret (class, base, pos, c));
        dlo (props, c) <- l_section_read k e c base;
        lret ({| sc_class := class; sc_properties := props |}, pos, c));
      l_sections_loop n (S k) e c pos (acc ++ [s])
  end.

(** libolecf_property_set_stream_get_set, lines 37-118 of
    libolecf_property_set_stream.c, and libolecf_property_set_read, lines
    372-564 of libolecf_property_set.c. *)
Definition l_get_set (c : Z) : lio (property_set * Z) :=
  dlo _ <- ltell [Make PartSet];
  dlo (h, c) <- on_error (set_free []) (llift (
    dio c <- pseek d c 0;
    dio (b, c) <- pread rd v d c 28;
    dio h <- ilift (read_header b);
    iret (h, c)));
  dlo (secs, c) <- l_sections_loop (Z.to_nat (ps_count h)) 0 (ps_order h) c 28 [];
  lret ({| ps_order := ps_order h; ps_format := ps_format h; ps_version := ps_version h;
           ps_class := ps_class h; ps_count := ps_count h; ps_sections := secs |}, c).

End Read.
