(** Lemmas on C programs: the memory of M_Api.v against variables that hold
    the objects themselves. *)
From Coq Require Import ZArith List Bool Lia Arith.
From Verif Require Import Base M_Header M_Table M_Load M_Stream M_Tree M_Open M_Item M_File M_Prop M_Api.
Import ListNotations.
Open Scope Z_scope.

(** * Memory *)
Lemma cell_lt {A} (m : heap A) a x : cell m a = Some x -> (a < length m)%nat.
Proof.
  unfold cell. intros H. apply nth_error_Some. destruct (nth_error m a); [discriminate|discriminate H].
Qed.
Lemma cell_put_same {A} (m : heap A) a c : (a < length m)%nat -> cell (put m a c) a = c.
Proof.
  revert a. induction m as [|y m IH]; intros a H; cbn in H; [lia|]. destruct a as [|a]; [reflexivity|].
  unfold cell in *. cbn. apply IH. lia.
Qed.
Lemma cell_put_other {A} (m : heap A) a b c : b <> a -> cell (put m a c) b = cell m b.
Proof.
  revert a b. induction m as [|y m IH]; intros a b H; [reflexivity|]. destruct a as [|a], b as [|b]; try reflexivity.
  - congruence.
  - unfold cell in *. cbn. apply IH. congruence.
Qed.
Lemma put_length {A} (m : heap A) a c : length (put m a c) = length m.
Proof. revert a. induction m as [|y m IH]; intros [|a]; cbn; auto. Qed.
Lemma cell_app_old {A} (m l : heap A) a : (a < length m)%nat -> cell (m ++ l) a = cell m a.
Proof. intros H. unfold cell. rewrite nth_error_app1 by exact H. reflexivity. Qed.
Lemma cell_app_new {A} (m : heap A) c : cell (m ++ [c]) (length m) = c.
Proof. unfold cell. rewrite nth_error_app2, Nat.sub_diag by lia. reflexivity. Qed.
Lemma cell_app_some {A} (m : heap A) c a x : cell (m ++ [c]) a = Some x ->
  cell m a = Some x \/ a = length m /\ c = Some x.
Proof.
  intros H. pose proof (cell_lt _ _ _ H) as L. rewrite app_length in L. cbn in L.
  destruct (Nat.eq_dec a (length m)) as [->|N]; [right|left].
  - rewrite cell_app_new in H. auto.
  - rewrite cell_app_old in H by lia. exact H.
Qed.
Lemma cell_put_some {A} (m : heap A) a c b x : cell (put m a c) b = Some x ->
  b <> a /\ cell m b = Some x \/ b = a /\ c = Some x.
Proof.
  intros H. pose proof (cell_lt _ _ _ H) as L. rewrite put_length in L. destruct (Nat.eq_dec b a) as [->|N]; [right|left].
  - rewrite cell_put_same in H by exact L. auto.
  - rewrite cell_put_other in H by exact N. auto.
Qed.

(** Freed memory. *)
Definition dead {A} (m : heap A) (a : nat) : Prop := (a < length m)%nat /\ cell m a = None.
Lemma dead_app {A} (m l : heap A) a : dead m a -> dead (m ++ l) a.
Proof. intros [H1 H2]. split; [rewrite app_length; lia|]. rewrite cell_app_old by exact H1. exact H2. Qed.
Lemma dead_put {A} (m : heap A) a b : dead m a -> dead (put m b None) a.
Proof.
  intros [H1 H2]. split; [rewrite put_length; exact H1|]. destruct (Nat.eq_dec a b) as [->|N].
  - apply cell_put_same. exact H1.
  - rewrite cell_put_other by exact N. exact H2.
Qed.
Lemma dead_new {A} (m : heap A) a x : cell m a = Some x -> dead (put m a None) a.
Proof. intros H. apply cell_lt in H. split; [rewrite put_length; exact H|]. apply cell_put_same. exact H. Qed.
Lemma dead_other {A} (m : heap A) a b c : cell m b <> None -> dead m a -> dead (put m b c) a.
Proof.
  intros H [H1 H2]. split; [rewrite put_length; exact H1|]. rewrite cell_put_other; [exact H2|]. intros ->. congruence.
Qed.

Lemma upd_same {A} (f : nat -> A) i x : upd f i x i = x.
Proof. unfold upd. rewrite Nat.eqb_refl. reflexivity. Qed.
Lemma upd_other {A} (f : nat -> A) i j x : j <> i -> upd f i x j = f j.
Proof. intros H. unfold upd. destruct (Nat.eqb_spec j i); [contradiction|reflexivity]. Qed.

(** * Variables that hold the objects
    An item is in its file, or dangling; likewise sections and values in sets. *)
Record astate := {
  as_files : nat -> option fstate;
  as_items : nat -> option (option (nat * nat * Z));
  as_sets : nat -> option property_set;
  as_sections : nat -> option (option (nat * Z));
  as_values : nat -> option (option (nat * Z * Z));
  as_world : world
}.

Definition a_start : astate :=
  {| as_files := fun _ => None; as_items := fun _ => None; as_sets := fun _ => None;
     as_sections := fun _ => None; as_values := fun _ => None;
     as_world := {| w_open := fun _ => false; w_own := 0 |} |}.

Definition a_world (a : astate) (w : world) : astate :=
  {| as_files := as_files a; as_items := as_items a; as_sets := as_sets a;
     as_sections := as_sections a; as_values := as_values a; as_world := w |}.
Definition a_file (a : astate) (f : nat) (x : option fstate) : astate :=
  {| as_files := upd (as_files a) f x; as_items := as_items a; as_sets := as_sets a;
     as_sections := as_sections a; as_values := as_values a; as_world := as_world a |}.
Definition a_item (a : astate) (i : nat) (x : option (option (nat * nat * Z))) : astate :=
  {| as_files := as_files a; as_items := upd (as_items a) i x; as_sets := as_sets a;
     as_sections := as_sections a; as_values := as_values a; as_world := as_world a |}.
Definition a_set (a : astate) (i : nat) (x : option property_set) : astate :=
  {| as_files := as_files a; as_items := as_items a; as_sets := upd (as_sets a) i x;
     as_sections := as_sections a; as_values := as_values a; as_world := as_world a |}.
Definition a_section (a : astate) (i : nat) (x : option (option (nat * Z))) : astate :=
  {| as_files := as_files a; as_items := as_items a; as_sets := as_sets a;
     as_sections := upd (as_sections a) i x; as_values := as_values a; as_world := as_world a |}.
Definition a_value (a : astate) (i : nat) (x : option (option (nat * Z * Z))) : astate :=
  {| as_files := as_files a; as_items := as_items a; as_sets := as_sets a;
     as_sections := as_sections a; as_values := upd (as_values a) i x; as_world := as_world a |}.

(** The items of the file [f] dangle. *)
Definition kill_items (a : astate) (f : nat) : astate :=
  {| as_files := as_files a;
     as_items := fun i => match as_items a i with
                          | Some (Some (g, k, c)) => if Nat.eqb g f then Some None else Some (Some (g, k, c))
                          | o => o
                          end;
     as_sets := as_sets a; as_sections := as_sections a; as_values := as_values a; as_world := as_world a |}.
(** The sections and values of the set [x] dangle. *)
Definition kill_parts (a : astate) (x : nat) : astate :=
  {| as_files := as_files a; as_items := as_items a; as_sets := as_sets a;
     as_sections := fun i => match as_sections a i with
                             | Some (Some (y, k)) => if Nat.eqb y x then Some None else Some (Some (y, k))
                             | o => o
                             end;
     as_values := fun i => match as_values a i with
                           | Some (Some (y, k, j)) => if Nat.eqb y x then Some None else Some (Some (y, k, j))
                           | o => o
                           end;
     as_world := as_world a |}.

Definition a_on_file (a : astate) (f : nat) (k : fstate -> answer * astate) : answer * astate :=
  match as_files a f with None => (CError, a) | Some x => k x end.

Definition a_new_item (ce : cenv) (f : nat) (t : option tree) (j : nat) (r : res (option nat)) (a : astate)
  : answer * astate :=
  match r with
  | Ok (Some k) =>
      if ce_memory ce then
        match node_value (match t with Some t => t | None => freed_tree end) k with
        | Ok _ => (CDone, a_item a j (Some (Some (f, k, 0))))
        | _ => (CUndefined, a)
        end
      else (CError, a)
  | Ok None => (CNothing, a)
  | Err => (CError, a)
  | _ => (CUndefined, a)
  end.

Definition a_file_item (ce : cenv) (f : nat) (lookup : fstate -> res (option nat)) (i : nat) (a : astate) :=
  a_on_file a f (fun x =>
    match as_items a i with
    | Some _ => (CError, a)
    | None => a_new_item ce f (file_tree x) i (lookup x) a
    end).

(** An item with the tree it is in and the byte order. *)
Definition a_tree (a : astate) (o : option (nat * nat * Z)) : tree :=
  match o with
  | Some (f, _, _) =>
      match as_files a f with
      | Some x => match file_tree x with Some t => t | None => freed_tree end
      | None => freed_tree
      end
  | None => freed_tree
  end.
Definition a_order (a : astate) (o : option (nat * nat * Z)) : endian :=
  match o with
  | Some (f, _, _) => match as_files a f with Some x => file_endian x | None => Little end
  | None => Little
  end.
Definition a_node (o : option (nat * nat * Z)) : nat :=
  match o with Some (_, k, _) => k | None => 0%nat end.
Definition a_entry (a : astate) (o : option (nat * nat * Z)) : res dirent := node_value (a_tree a o) (a_node o).

Definition a_item_value (lib : clib) (a : astate) (o : option (nat * nat * Z)) (q : item_query) : answer :=
  match q with
  | QType => of_number (do d <- a_entry a o; Ok (de_type d))
  | QSize => of_number (do d <- a_entry a o; Ok (de_size d))
  | QCreationTime => of_number (do d <- a_entry a o; Ok (de_ctime d))
  | QModificationTime => of_number (do d <- a_entry a o; Ok (de_mtime d))
  | QUtf8NameSize => of_number (do d <- a_entry a o; cl_utf8_size lib (de_name d) (a_order a o))
  | QUtf8Name n =>
      if SSIZE_MAX <? n then CError
      else of_bytes (do d <- a_entry a o; cl_utf8 lib (de_name d) (a_order a o) n)
  | QUtf16NameSize => of_number (do d <- a_entry a o; cl_utf16_size lib (de_name d) (a_order a o))
  | QUtf16Name n => of_bytes (do d <- a_entry a o; cl_utf16 lib (de_name d) (a_order a o) n)
  | QSubItems => of_number (get_number_of_sub_items (a_tree a o) (a_node o))
  end.

Definition tree_found (lib : clib) (e : endian) (t : tree) (k : nat) (l : sub_lookup) : res (option nat) :=
  match l with
  | ByIndex i => do j <- get_sub_item t k i; Ok (Some j)
  | ByUtf8Name n => sub_node_by_utf8_name (cl_una lib) e t k n
  | ByUtf16Name n => sub_node_by_utf16_name (cl_una lib) e t k n
  | ByUtf8Path p => sub_item_by_utf8_path (cl_una lib) e t k p
  | ByUtf16Path p => sub_item_by_utf16_path (cl_una lib) e t k p
  end.

Definition a_stream (a : astate) (o : option (nat * nat * Z)) : option (dirent * volume * Z) :=
  match o with
  | Some (f, _, _) =>
      match a_entry a o, as_files a f with
      | Ok d, Some x =>
          match file_volume x with Some v => Some (d, v, io_codepage (fs_io x)) | None => None end
      | _, _ => None
      end
  | None => None
  end.

Definition a_part (a : astate) (o : option (nat * Z)) : option section :=
  match o with
  | Some (x, i) => match as_sets a x with Some y => znth (ps_sections y) i | None => None end
  | None => None
  end.
Definition a_part_value (a : astate) (o : option (nat * Z * Z)) : option property :=
  match o with
  | Some (p, i) => match a_part a (Some p) with Some y => znth (sc_properties y) i | None => None end
  | None => None
  end.

Definition a_step (lib : clib) (ce : cenv) (c : call) (a : astate) : answer * astate :=
  let opening f op :=
    a_on_file a f (fun x =>
      match file_step (cl_una lib) (ce_io ce) op x (as_world a) with
      | (r, x', w') => (of_file r, a_world (a_file a f (Some x')) w')
      end) in
  match c with
  | FileInitialize f =>
      match as_files a f with
      | Some _ => (CError, a)
      | None => if ce_memory ce then (CDone, a_file a f (Some new_file)) else (CError, a)
      end
  | FileFree f =>
      match as_files a f with
      | None => (CDone, a)
      | Some x =>
          let (r, w') := file_free (ce_io ce) (as_world a) x in
          (match r with Ok _ => CDone | Err => CError | _ => CUndefined end,
           a_world (a_file (kill_items a f) f None) w')
      end
  | FileOpen f flags => opening f (FOpen flags)
  | FileOpenHandle f n flags => opening f (FOpenHandle n flags)
  | FileClose f =>
      a_on_file a f (fun x =>
        match file_step (cl_una lib) (ce_io ce) FClose x (as_world a) with
        | (r, x', w') =>
            match fs_handle x with
            | Some _ => (of_file r, a_world (a_file (kill_items a f) f (Some x')) w')
            | None => (of_file r, a)
            end
        end)
  | FileCall f q =>
      a_on_file a f (fun x =>
        match query_op q with
        | Some op =>
            match file_step (cl_una lib) (ce_io ce) op x (as_world a) with
            | (r, x', _) => (of_file r, a_file a f (Some x'))
            end
        | None => (CError, a)
        end)
  | FileRootItem f i => a_file_item ce f (fun x => get_root_item (file_tree x)) i a
  | FileItemByUtf8Path f p i =>
      a_file_item ce f (fun x => item_by_utf8_path (cl_una lib) (file_endian x) (file_tree x) p) i a
  | FileItemByUtf16Path f p i =>
      a_file_item ce f (fun x => item_by_utf16_path (cl_una lib) (file_endian x) (file_tree x) p) i a
  | ItemFree i => (CDone, a_item a i None)
  | ItemCall i q =>
      match as_items a i with None => (CError, a) | Some o => (a_item_value lib a o q, a) end
  | ItemSub i l j =>
      match as_items a i with
      | None => (CError, a)
      | Some o =>
          match as_items a j with
          | Some _ => (CError, a)
          | None =>
              a_new_item ce (match o with Some (f, _, _) => f | None => 0%nat end) (Some (a_tree a o)) j
                (tree_found lib (a_order a o) (a_tree a o) (a_node o) l) a
          end
      end
  | ItemStream i op =>
      match as_items a i with
      | None => (CError, a)
      | Some o =>
          match o, a_stream a o with
          | Some (f, k, c), Some (d, v, _) =>
              let (r, c') := item_step (ev_reader (ce_io ce)) v d op c in
              (of_stream r, a_item a i (Some (Some (f, k, c'))))
          | _, _ => (CUndefined, a)
          end
      end
  | ItemSet i x =>
      match as_items a i with
      | None => (CError, a)
      | Some o =>
          match as_sets a x with
          | Some _ => (CError, a)
          | None =>
              if negb (ce_memory ce) then (CError, a)
              else
                match o, a_stream a o with
                | Some (f, k, c), Some (d, v, cp) =>
                    match fst (get_set (cl_values lib) (ev_reader (ce_io ce)) v d cp c []) with
                    | Ok (y, c') => (CDone, a_set (a_item a i (Some (Some (f, k, c')))) x (Some y))
                    | Err => (CError, a_item a i (Some (Some (f, k, ce_position ce))))
                    | _ => (CUndefined, a)
                    end
                | _, _ => (CUndefined, a)
                end
          end
      end
  | SetFree x =>
      match as_sets a x with None => (CDone, a) | Some _ => (CDone, a_set (kill_parts a x) x None) end
  | SetClass x n =>
      match as_sets a x with
      | None => (CError, a)
      | Some y => (if n <? 16 then CError else CBytes (ps_class y), a)
      end
  | SetNumber x =>
      match as_sets a x with None => (CError, a) | Some y => (CNumber (zlen (ps_sections y)), a) end
  | SetSection x index c =>
      match as_sets a x with
      | None => (CError, a)
      | Some y =>
          match as_sections a c with
          | Some _ => (CError, a)
          | None =>
              match get_section y index with
              | Ok _ => (CDone, a_section a c (Some (Some (x, index))))
              | _ => (CError, a)
              end
          end
      end
  | SectionFree c => (CDone, a_section a c None)
  | SectionClass c n =>
      match as_sections a c with
      | None => (CError, a)
      | Some o =>
          if n <? 16 then (CError, a)
          else match a_part a o with Some y => (CBytes (sc_class y), a) | None => (CUndefined, a) end
      end
  | SectionNumber c =>
      match as_sections a c with
      | None => (CError, a)
      | Some o =>
          match a_part a o with Some y => (CNumber (zlen (sc_properties y)), a) | None => (CUndefined, a) end
      end
  | SectionValue c index v =>
      match as_sections a c with
      | None => (CError, a)
      | Some o =>
          match as_values a v with
          | Some _ => (CError, a)
          | None =>
              match o, a_part a o with
              | Some p, Some y =>
                  match get_property y index with
                  | Ok _ => (CDone, a_value a v (Some (Some (p, index))))
                  | _ => (CError, a)
                  end
              | _, _ => (CUndefined, a)
              end
          end
      end
  | ValueFree v => (CDone, a_value a v None)
  | ValueCall v q =>
      match as_values a v with
      | None => (CError, a)
      | Some o =>
          match a_part_value a o with Some y => (value_value lib y q, a) | None => (CUndefined, a) end
      end
  | HandleOpen n => (CDone, a_world a (set_open (as_world a) n true))
  | HandleClose n => (CDone, a_world a (set_open (as_world a) n false))
  end.

Fixpoint a_run (lib : clib) (h : list (cenv * call)) (a : astate) : list answer * astate :=
  match h with
  | [] => ([], a)
  | (ce, c) :: h' =>
      let (x, a1) := a_step lib ce c a in
      let (r, a2) := a_run lib h' a1 in
      (x :: r, a2)
  end.

(** * The relation *)
Definition tree_good (m : heap tree) (t : option nat) (o : option tree) : Prop :=
  match t with Some b => exists tr, cell m b = Some tr /\ o = Some tr | None => o = None end.

Definition closed_empty (x : fstate) : Prop := fs_handle x = None -> file_tree x = None.

Definition item_good (s : cstate) (it : item_object) (o : option (nat * nat * Z)) : Prop :=
  match o with
  | Some (f, k, c) =>
      k = ci_node it /\ c = ci_cursor it /\ cs_files s f = Some (ci_file it) /\
      exists x, cell (m_files (cs_memory s)) (ci_file it) = Some (x, Some (ci_tree it))
  | None => dead (m_trees (cs_memory s)) (ci_tree it)
  end.

Definition part_good (s : cstate) (p : nat * Z) (o : option (nat * Z)) : Prop :=
  match o with
  | Some (x, i) => i = snd p /\ cs_sets s x = Some (fst p)
  | None => dead (m_sets (cs_memory s)) (fst p)
  end.

Definition value_good (s : cstate) (p : nat * Z * Z) (o : option (nat * Z * Z)) : Prop :=
  match o with
  | Some (x, i, j) => j = snd p /\ i = snd (fst p) /\ cs_sets s x = Some (fst (fst p))
  | None => dead (m_sets (cs_memory s)) (fst (fst p))
  end.

Record rel (s : cstate) (a : astate) : Prop := {
  r_files : forall f,
    match cs_files s f with
    | None => as_files a f = None
    | Some p => exists x t, cell (m_files (cs_memory s)) p = Some (x, t) /\ as_files a f = Some x /\
                  tree_good (m_trees (cs_memory s)) t (file_tree x) /\ closed_empty x
    end;
  r_items : forall i,
    match cs_items s i with
    | None => as_items a i = None
    | Some p => exists it o, cell (m_items (cs_memory s)) p = Some it /\ as_items a i = Some o /\ item_good s it o
    end;
  r_sets : forall x,
    match cs_sets s x with
    | None => as_sets a x = None
    | Some p => exists y, cell (m_sets (cs_memory s)) p = Some y /\ as_sets a x = Some y
    end;
  r_sections : forall c,
    match cs_sections s c with
    | None => as_sections a c = None
    | Some p => exists o, as_sections a c = Some o /\ part_good s p o
    end;
  r_values : forall v,
    match cs_values s v with
    | None => as_values a v = None
    | Some p => exists o, as_values a v = Some o /\ value_good s p o
    end;
  r_one_file : forall f g p, cs_files s f = Some p -> cs_files s g = Some p -> f = g;
  r_one_item : forall f g p, cs_items s f = Some p -> cs_items s g = Some p -> f = g;
  r_one_set : forall f g p, cs_sets s f = Some p -> cs_sets s g = Some p -> f = g;
  r_one_tree : forall p q x y b, cell (m_files (cs_memory s)) p = Some (x, Some b) ->
    cell (m_files (cs_memory s)) q = Some (y, Some b) -> p = q;
  r_own_files : forall p x, cell (m_files (cs_memory s)) p = Some x -> exists f, cs_files s f = Some p;
  r_own_trees : forall b t, cell (m_trees (cs_memory s)) b = Some t ->
    exists p x, cell (m_files (cs_memory s)) p = Some (x, Some b);
  r_own_items : forall p x, cell (m_items (cs_memory s)) p = Some x -> exists i, cs_items s i = Some p;
  r_own_sets : forall p x, cell (m_sets (cs_memory s)) p = Some x -> exists i, cs_sets s i = Some p;
  r_world : cs_world s = as_world a
}.

Lemma rel_start : rel c_start a_start.
Proof.
  assert (H : forall {A} p, cell (@nil (option A)) p = None) by (intros A [|p]; reflexivity).
  constructor; cbn; intros; try reflexivity; try congruence; rewrite H in *; discriminate.
Qed.

Lemma tree_of_live s a : rel s a -> forall f p x b, cs_files s f = Some p ->
  cell (m_files (cs_memory s)) p = Some (x, Some b) ->
  as_files a f = Some x /\ exists t, cell (m_trees (cs_memory s)) b = Some t /\ file_tree x = Some t.
Proof.
  intros R f p x b Hf Hc. pose proof (r_files _ _ R f) as H. rewrite Hf in H. destruct H as (x' & t & H1 & H2 & H3 & _).
  rewrite Hc in H1. injection H1 as <- <-. split; [exact H2|]. exact H3.
Qed.

(** * Changes of the state *)
Lemma rel_world s a w : rel s a -> rel (with_world s w) (a_world a w).
Proof. intros []. constructor; cbn; auto. Qed.

(** A file changes, its tree does not. *)
Lemma rel_file_same s a f p x t x' : rel s a -> cs_files s f = Some p ->
  cell (m_files (cs_memory s)) p = Some (x, t) -> file_tree x' = file_tree x -> closed_empty x' ->
  rel (with_memory s (put_file (cs_memory s) p (x', t))) (a_file a f (Some x')).
Proof.
  intros R Hf Hc Ht He. pose proof (cell_lt _ _ _ Hc) as Hlt.
  assert (Hcell : forall q y, cell (put (m_files (cs_memory s)) p (Some (x', t))) q = Some y ->
            exists y0, cell (m_files (cs_memory s)) q = Some (y0, snd y)).
  { intros q y H. apply cell_put_some in H as [[_ H]|[-> H]]; [exists (fst y); destruct y; exact H|].
    injection H as <-. exists x. exact Hc. }
  assert (Hother : forall g q y, cs_files s g = Some q -> g <> f -> cell (m_files (cs_memory s)) q = y ->
            cell (put (m_files (cs_memory s)) p (Some (x', t))) q = y).
  { intros g q y Hg N H. rewrite cell_put_other; [exact H|]. intros ->. apply N. exact (r_one_file _ _ R _ _ _ Hg Hf). }
  destruct R as [RF RI RS RC RV OF OI OS OT WF WT WI WS RW]. constructor; cbn [with_memory put_file set_files cs_memory cs_files
    cs_items cs_sets cs_sections cs_values cs_world m_files m_trees m_items m_sets a_file as_files as_items as_sets
    as_sections as_values as_world]; auto.
  - intros g. destruct (Nat.eq_dec g f) as [->|N].
    + specialize (RF f). rewrite Hf in *. rewrite upd_same. exists x', t. rewrite cell_put_same by exact Hlt.
      destruct RF as (x0 & t0 & H1 & H2 & H3 & H4). rewrite Hc in H1. injection H1 as <- <-. rewrite Ht. auto.
    + specialize (RF g). rewrite upd_other by exact N. destruct (cs_files s g) as [q|] eqn:Eg; [|exact RF].
      destruct RF as (x0 & t0 & H1 & H2). exists x0, t0. split; [apply (Hother g); auto|exact H2].
  - intros i. specialize (RI i). destruct (cs_items s i) as [q|]; [|exact RI].
    destruct RI as (it & o & H1 & H2 & H3). exists it, o. split; [exact H1|]. split; [exact H2|].
    unfold item_good in *. cbn. destruct o as [[[g k] c]|]; [|exact H3].
    destruct H3 as (E1 & E2 & E3 & y & E4). do 3 (split; [assumption|]). destruct (Nat.eq_dec g f) as [->|N].
    + rewrite Hf in E3. assert (E5 : ci_file it = p) by congruence. rewrite E5 in *. rewrite Hc in E4. injection E4 as <- ->. exists x'. apply cell_put_same. exact Hlt.
    + exists y. apply (Hother g); auto.
  - intros q q' y y' b H1 H2. apply Hcell in H1 as (y1 & H1). apply Hcell in H2 as (y2 & H2). cbn in *. eauto.
  - intros q y H. apply Hcell in H as (y0 & H). eauto.
  - intros b y H. destruct (WT b y H) as (q & z & Hq). destruct (Nat.eq_dec q p) as [->|N].
    + rewrite Hc in Hq. injection Hq as <- ->. exists p, x'. apply cell_put_same. exact Hlt.
    + exists q, z. rewrite cell_put_other by exact N. exact Hq.
Qed.

Lemma rel_new_file s a f : rel s a -> cs_files s f = None ->
  rel (with_file (with_memory s (set_files (cs_memory s) (m_files (cs_memory s) ++ [Some (new_file, None)])))
                 f (Some (length (m_files (cs_memory s)))))
      (a_file a f (Some new_file)).
Proof.
  intros R Hf.
  assert (Hin : forall g q, cs_files s g = Some q -> (q < length (m_files (cs_memory s)))%nat).
  { intros g q Hg. pose proof (r_files _ _ R g) as H. rewrite Hg in H. destruct H as (x & t & H & _). exact (cell_lt _ _ _ H). }
  destruct R as [RF RI RS RC RV OF OI OS OT WF WT WI WS RW]. constructor; cbn [with_memory with_file set_files cs_memory cs_files
    cs_items cs_sets cs_sections cs_values cs_world m_files m_trees m_items m_sets a_file as_files as_items as_sets
    as_sections as_values as_world]; auto.
  - intros g. destruct (Nat.eq_dec g f) as [->|N].
    + rewrite !upd_same. exists new_file, None. rewrite cell_app_new. split; [reflexivity|]. split; [reflexivity|].
      split; [reflexivity|]. intros _. reflexivity.
    + rewrite !upd_other by exact N. specialize (RF g). destruct (cs_files s g) as [q|] eqn:Eg; [|exact RF].
      destruct RF as (x0 & t0 & H1 & H2). exists x0, t0. split; [|exact H2].
      rewrite cell_app_old by (eapply Hin; eauto). exact H1.
  - intros i. specialize (RI i). destruct (cs_items s i) as [q|]; [|exact RI].
    destruct RI as (it & o & H1 & H2 & H3). exists it, o. split; [exact H1|]. split; [exact H2|].
    unfold item_good in *. cbn. destruct o as [[[g k] c]|]; [|exact H3].
    destruct H3 as (E1 & E2 & E3 & y & E4). do 2 (split; [assumption|]).
    rewrite upd_other by (intros ->; congruence). split; [exact E3|]. exists y. rewrite cell_app_old; [exact E4|].
    exact (cell_lt _ _ _ E4).
  - intros g g' q H1 H2. destruct (Nat.eq_dec g f) as [->|N], (Nat.eq_dec g' f) as [->|N']; auto;
      rewrite ?upd_same, ?upd_other in * by assumption.
    + injection H1 as <-. apply Hin in H2. lia.
    + injection H2 as <-. apply Hin in H1. lia.
    + eauto.
  - intros q q' y y' b H1 H2. apply cell_app_some in H1 as [H1|[_ H1]]; [|discriminate].
    apply cell_app_some in H2 as [H2|[_ H2]]; [|discriminate]. eauto.
  - intros q y H. apply cell_app_some in H as [H|[-> H]].
    + destruct (WF q y H) as (g & Hg). exists g. rewrite upd_other; [exact Hg|]. intros ->. congruence.
    + exists f. apply upd_same.
  - intros b y H. destruct (WT b y H) as (q & z & Hq). exists q, z. rewrite cell_app_old; [exact Hq|]. exact (cell_lt _ _ _ Hq).
Qed.

(** A file without a tree gets one. *)
Lemma rel_open s a f p x x' tr : rel s a -> cs_files s f = Some p ->
  cell (m_files (cs_memory s)) p = Some (x, None) -> file_tree x' = Some tr -> closed_empty x' ->
  rel (with_memory s (set_trees (put_file (cs_memory s) p (x', Some (length (m_trees (cs_memory s)))))
                                (m_trees (cs_memory s) ++ [Some tr])))
      (a_file a f (Some x')).
Proof.
  intros R Hf Hc Ht He. pose proof (cell_lt _ _ _ Hc) as Hlt.
  assert (Hother : forall g q y, cs_files s g = Some q -> g <> f -> cell (m_files (cs_memory s)) q = y ->
            cell (put (m_files (cs_memory s)) p (Some (x', Some (length (m_trees (cs_memory s)))))) q = y).
  { intros g q y Hg N H. rewrite cell_put_other; [exact H|]. intros ->. apply N. exact (r_one_file _ _ R _ _ _ Hg Hf). }
  assert (Hnew : forall q y, cell (m_files (cs_memory s)) q = Some (y, Some (length (m_trees (cs_memory s)))) -> False).
  { intros q y H. destruct (r_own_files _ _ R _ _ H) as (g & Hg).
    destruct (tree_of_live _ _ R _ _ _ _ Hg H) as (_ & t & H2 & _). apply cell_lt in H2. lia. }
  destruct R as [RF RI RS RC RV OF OI OS OT WF WT WI WS RW]. constructor; cbn [with_memory put_file set_files set_trees cs_memory cs_files
    cs_items cs_sets cs_sections cs_values cs_world m_files m_trees m_items m_sets a_file as_files as_items as_sets
    as_sections as_values as_world]; auto.
  - intros g. destruct (Nat.eq_dec g f) as [->|N].
    + rewrite Hf, upd_same. exists x', (Some (length (m_trees (cs_memory s)))). rewrite cell_put_same by exact Hlt.
      split; [reflexivity|]. split; [reflexivity|]. split; [|exact He]. exists tr. rewrite cell_app_new. auto.
    + specialize (RF g). rewrite upd_other by exact N. destruct (cs_files s g) as [q|] eqn:Eg; [|exact RF].
      destruct RF as (x0 & t0 & H1 & H2 & H3 & H4). exists x0, t0. split; [apply (Hother g); auto|]. split; [exact H2|].
      split; [|exact H4]. destruct t0 as [b|]; [|exact H3]. destruct H3 as (t1 & H3 & H5). exists t1. split; [|exact H5].
      rewrite cell_app_old; [exact H3|]. exact (cell_lt _ _ _ H3).
  - intros i. specialize (RI i). destruct (cs_items s i) as [q|]; [|exact RI].
    destruct RI as (it & o & H1 & H2 & H3). exists it, o. split; [exact H1|]. split; [exact H2|].
    unfold item_good in *. cbn. destruct o as [[[g k] c]|]; [|apply dead_app; exact H3].
    destruct H3 as (E1 & E2 & E3 & y & E4). do 3 (split; [assumption|]). destruct (Nat.eq_dec g f) as [->|N].
    + rewrite Hf in E3. assert (E5 : ci_file it = p) by congruence. rewrite E5 in *. rewrite Hc in E4. discriminate.
    + exists y. apply (Hother g); auto.
  - intros q q' y y' b H1 H2.
    apply cell_put_some in H1 as [[N1 H1]|[-> H1]]; apply cell_put_some in H2 as [[N2 H2]|[-> H2]]; auto.
    + eauto.
    + injection H2 as <- <-. destruct (Hnew _ _ H1).
    + injection H1 as <- <-. destruct (Hnew _ _ H2).
  - intros q y H. apply cell_put_some in H as [[N H]|[-> H]]; eauto.
  - intros b y H. apply cell_app_some in H as [H|[-> H]].
    + destruct (WT b y H) as (q & z & Hq). exists q, z. rewrite cell_put_other; [exact Hq|]. intros ->. congruence.
    + exists p, x'. apply cell_put_same. exact Hlt.
Qed.

(** The tree of a file is freed. *)
Lemma rel_close s a f p x t x' : rel s a -> cs_files s f = Some p ->
  cell (m_files (cs_memory s)) p = Some (x, t) -> file_tree x' = None ->
  rel (with_memory s (put_file (tree_free (cs_memory s) t) p (x', None))) (a_file (kill_items a f) f (Some x')).
Proof.
  intros R Hf Hc Ht. pose proof (cell_lt _ _ _ Hc) as Hlt.
  assert (Hmf : m_files (tree_free (cs_memory s) t) = m_files (cs_memory s)) by (destruct t; reflexivity).
  assert (Hmi : m_items (tree_free (cs_memory s) t) = m_items (cs_memory s)) by (destruct t; reflexivity).
  assert (Hms : m_sets (tree_free (cs_memory s) t) = m_sets (cs_memory s)) by (destruct t; reflexivity).
  set (mt := m_trees (tree_free (cs_memory s) t)).
  assert (Hdead : forall b, dead (m_trees (cs_memory s)) b -> dead mt b).
  { intros b H. unfold mt. destruct t as [b'|]; [apply dead_put|]; exact H. }
  assert (Hgone : forall b, t = Some b -> dead mt b).
  { intros b ->. destruct (tree_of_live _ _ R _ _ _ _ Hf Hc) as (_ & t1 & H & _). exact (dead_new _ _ _ H). }
  assert (Hkeep : forall b, t <> Some b -> cell mt b = cell (m_trees (cs_memory s)) b).
  { intros b H. unfold mt. destruct t as [b'|]; [|reflexivity]. apply cell_put_other. congruence. }
  assert (Hsome : forall b y, cell mt b = Some y -> t <> Some b /\ cell (m_trees (cs_memory s)) b = Some y).
  { intros b y H. assert (N : t <> Some b). { intros E. destruct (Hgone b E) as [_ G]. congruence. }
    split; [exact N|]. rewrite Hkeep in H by exact N. exact H. }
  assert (Hother : forall g q y, cs_files s g = Some q -> g <> f -> cell (m_files (cs_memory s)) q = y ->
            cell (put (m_files (cs_memory s)) p (Some (x', None))) q = y).
  { intros g q y Hg N H. rewrite cell_put_other; [exact H|]. intros ->. apply N. exact (r_one_file _ _ R _ _ _ Hg Hf). }
  destruct R as [RF RI RS RC RV OF OI OS OT WF WT WI WS RW]. constructor; cbn [with_memory put_file set_files set_trees cs_memory cs_files
    cs_items cs_sets cs_sections cs_values cs_world m_files m_trees m_items m_sets a_file kill_items as_files as_items as_sets
    as_sections as_values as_world]; rewrite ?Hmf, ?Hmi, ?Hms; fold mt; auto.
  - intros g. destruct (Nat.eq_dec g f) as [->|N].
    + rewrite Hf, upd_same. exists x', None. rewrite cell_put_same by exact Hlt.
      split; [reflexivity|]. split; [reflexivity|]. split; [exact Ht|]. intros _. exact Ht.
    + specialize (RF g). rewrite upd_other by exact N. destruct (cs_files s g) as [q|] eqn:Eg; [|exact RF].
      destruct RF as (x0 & t0 & H1 & H2 & H3 & H4). exists x0, t0. split; [apply (Hother g); auto|]. split; [exact H2|].
      split; [|exact H4]. destruct t0 as [b|]; [|exact H3]. destruct H3 as (t1 & H3 & H5). exists t1. split; [|exact H5].
      rewrite Hkeep; [exact H3|]. intros ->. apply N. apply (OF g f p); [|exact Hf].
      rewrite Eg. f_equal. exact (OT _ _ _ _ _ H1 Hc).
  - intros i. specialize (RI i). destruct (cs_items s i) as [q|]; [|rewrite RI; reflexivity].
    destruct RI as (it & o & H1 & H2 & H3). rewrite H2. unfold item_good in *. destruct o as [[[g k] c]|].
    + destruct H3 as (E1 & E2 & E3 & y & E4). destruct (Nat.eqb_spec g f) as [->|N].
      * exists it, None. split; [exact H1|]. split; [reflexivity|]. cbn. fold mt. apply Hgone.
        rewrite Hf in E3. assert (E5 : ci_file it = p) by congruence. rewrite E5 in *. rewrite Hc in E4. injection E4 as <- ->. reflexivity.
      * exists it, (Some (g, k, c)). split; [exact H1|]. split; [reflexivity|]. do 3 (split; [assumption|]).
        exists y. cbn. rewrite Hmf. apply (Hother g); auto.
    + exists it, None. split; [exact H1|]. split; [reflexivity|]. cbn. apply Hdead. exact H3.
  - intros c. specialize (RC c). destruct (cs_sections s c); [|exact RC]. destruct RC as (o & H1 & H2). exists o. split; [exact H1|].
    destruct o as [[y i]|]; cbn in *; rewrite ?Hms; exact H2.
  - intros c. specialize (RV c). destruct (cs_values s c); [|exact RV]. destruct RV as (o & H1 & H2). exists o. split; [exact H1|].
    destruct o as [[[y i] j]|]; cbn in *; rewrite ?Hms; exact H2.
  - intros q q' y y' b H1 H2.
    apply cell_put_some in H1 as [[N1 H1]|[-> H1]]; apply cell_put_some in H2 as [[N2 H2]|[-> H2]]; try discriminate; eauto.
  - intros q y H. apply cell_put_some in H as [[N H]|[-> H]]; eauto.
  - intros b y H. apply Hsome in H as [N H]. destruct (WT b y H) as (q & z & Hq). exists q, z.
    rewrite cell_put_other; [exact Hq|]. intros ->. congruence.
Qed.

(** A file without a tree is freed. *)
Lemma rel_drop_file s a f p x : rel s a -> cs_files s f = Some p ->
  cell (m_files (cs_memory s)) p = Some (x, None) ->
  rel (with_file (with_memory s (set_files (cs_memory s) (put (m_files (cs_memory s)) p None))) f None) (a_file a f None).
Proof.
  intros R Hf Hc. pose proof (cell_lt _ _ _ Hc) as Hlt.
  assert (Hother : forall g q y, cs_files s g = Some q -> g <> f -> cell (m_files (cs_memory s)) q = y ->
            cell (put (m_files (cs_memory s)) p None) q = y).
  { intros g q y Hg N H. rewrite cell_put_other; [exact H|]. intros ->. apply N. exact (r_one_file _ _ R _ _ _ Hg Hf). }
  destruct R as [RF RI RS RC RV OF OI OS OT WF WT WI WS RW]. constructor; cbn [with_memory with_file set_files set_trees cs_memory cs_files
    cs_items cs_sets cs_sections cs_values cs_world m_files m_trees m_items m_sets a_file as_files as_items as_sets
    as_sections as_values as_world]; auto.
  - intros g. destruct (Nat.eq_dec g f) as [->|N]; [rewrite !upd_same; reflexivity|].
    specialize (RF g). rewrite !upd_other by exact N. destruct (cs_files s g) as [q|] eqn:Eg; [|exact RF].
    destruct RF as (x0 & t0 & H1 & H2). exists x0, t0. split; [apply (Hother g); auto|exact H2].
  - intros i. specialize (RI i). destruct (cs_items s i) as [q|]; [|exact RI].
    destruct RI as (it & o & H1 & H2 & H3). exists it, o. split; [exact H1|]. split; [exact H2|].
    unfold item_good in *. cbn. destruct o as [[[g k] c]|]; [|exact H3].
    destruct H3 as (E1 & E2 & E3 & y & E4). do 2 (split; [assumption|]). destruct (Nat.eq_dec g f) as [->|N].
    + rewrite Hf in E3. assert (E5 : ci_file it = p) by congruence. rewrite E5 in *. rewrite Hc in E4. discriminate.
    + rewrite upd_other by exact N. split; [exact E3|]. exists y. apply (Hother g); auto.
  - intros g g' q H1 H2. destruct (Nat.eq_dec g f) as [->|N], (Nat.eq_dec g' f) as [->|N']; auto;
      rewrite ?upd_same, ?upd_other in * by assumption; try discriminate. eauto.
  - intros q q' y y' b H1 H2.
    apply cell_put_some in H1 as [[N1 H1]|[-> H1]]; apply cell_put_some in H2 as [[N2 H2]|[-> H2]]; try discriminate; eauto.
  - intros q y H. apply cell_put_some in H as [[N H]|[-> H]]; [|discriminate]. destruct (WF q y H) as (g & Hg). exists g.
    rewrite upd_other; [exact Hg|]. intros ->. congruence.
  - intros b y H. destruct (WT b y H) as (q & z & Hq). exists q, z.
    rewrite cell_put_other; [exact Hq|]. intros ->. congruence.
Qed.

(** Items. *)
Lemma rel_new_item s a j it o : rel s a -> cs_items s j = None -> item_good s it o ->
  rel (with_item (with_memory s (set_items (cs_memory s) (m_items (cs_memory s) ++ [Some it])))
                 j (Some (length (m_items (cs_memory s)))))
      (a_item a j (Some o)).
Proof.
  intros R Hj Hg.
  assert (Hin : forall i q, cs_items s i = Some q -> (q < length (m_items (cs_memory s)))%nat).
  { intros i q Hi. pose proof (r_items _ _ R i) as H. rewrite Hi in H. destruct H as (y & t & H & _). exact (cell_lt _ _ _ H). }
  destruct R as [RF RI RS RC RV OF OI OS OT WF WT WI WS RW]. constructor; cbn [with_memory with_item set_items cs_memory cs_files
    cs_items cs_sets cs_sections cs_values cs_world m_files m_trees m_items m_sets a_item as_files as_items as_sets
    as_sections as_values as_world]; auto.
  - intros i. destruct (Nat.eq_dec i j) as [->|N].
    + rewrite !upd_same. exists it, o. rewrite cell_app_new. auto.
    + rewrite !upd_other by exact N. specialize (RI i). destruct (cs_items s i) as [q|] eqn:E; [|exact RI].
      destruct RI as (y & o' & H1 & H2). exists y, o'. split; [|exact H2].
      rewrite cell_app_old by (eapply Hin; eauto). exact H1.
  - intros g g' q H1 H2. destruct (Nat.eq_dec g j) as [->|N], (Nat.eq_dec g' j) as [->|N']; auto;
      rewrite ?upd_same, ?upd_other in * by assumption.
    + injection H1 as <-. apply Hin in H2. lia.
    + injection H2 as <-. apply Hin in H1. lia.
    + eauto.
  - intros q y H. apply cell_app_some in H as [H|[-> H]].
    + destruct (WI q y H) as (g & Hg'). exists g. rewrite upd_other; [exact Hg'|]. intros ->. congruence.
    + exists j. apply upd_same.
Qed.

Lemma rel_move_item s a i p it o c : rel s a -> cs_items s i = Some p -> cell (m_items (cs_memory s)) p = Some it ->
  item_good s {| ci_file := ci_file it; ci_tree := ci_tree it; ci_node := ci_node it; ci_cursor := c |} o ->
  rel (with_memory s (move_item (cs_memory s) p it c)) (a_item a i (Some o)).
Proof.
  intros R Hi Hc Hg. pose proof (cell_lt _ _ _ Hc) as Hlt.
  assert (Hother : forall g q y, cs_items s g = Some q -> g <> i -> cell (m_items (cs_memory s)) q = y ->
            forall z, cell (put (m_items (cs_memory s)) p z) q = y).
  { intros g q y Hg' N H z. rewrite cell_put_other; [exact H|]. intros ->. apply N. exact (r_one_item _ _ R _ _ _ Hg' Hi). }
  destruct R as [RF RI RS RC RV OF OI OS OT WF WT WI WS RW]. constructor; cbn [with_memory move_item set_items cs_memory cs_files
    cs_items cs_sets cs_sections cs_values cs_world m_files m_trees m_items m_sets a_item as_files as_items as_sets
    as_sections as_values as_world]; auto.
  - intros j. destruct (Nat.eq_dec j i) as [->|N].
    + rewrite Hi, upd_same. eexists _, o. rewrite cell_put_same by exact Hlt. split; [reflexivity|]. split; [reflexivity|exact Hg].
    + rewrite upd_other by exact N. specialize (RI j). destruct (cs_items s j) as [q|] eqn:E; [|exact RI].
      destruct RI as (y & o' & H1 & H2). exists y, o'. split; [|exact H2]. apply (Hother j); auto.
  - intros q y H. apply cell_put_some in H as [[N H]|[-> H]]; eauto.
Qed.

Lemma rel_drop_item s a i p it : rel s a -> cs_items s i = Some p -> cell (m_items (cs_memory s)) p = Some it ->
  rel (with_item (with_memory s (set_items (cs_memory s) (put (m_items (cs_memory s)) p None))) i None) (a_item a i None).
Proof.
  intros R Hi Hc.
  assert (Hother : forall g q y, cs_items s g = Some q -> g <> i -> cell (m_items (cs_memory s)) q = y ->
            forall z, cell (put (m_items (cs_memory s)) p z) q = y).
  { intros g q y Hg' N H z. rewrite cell_put_other; [exact H|]. intros ->. apply N. exact (r_one_item _ _ R _ _ _ Hg' Hi). }
  destruct R as [RF RI RS RC RV OF OI OS OT WF WT WI WS RW]. constructor; cbn [with_memory with_item set_items cs_memory cs_files
    cs_items cs_sets cs_sections cs_values cs_world m_files m_trees m_items m_sets a_item as_files as_items as_sets
    as_sections as_values as_world]; auto.
  - intros j. destruct (Nat.eq_dec j i) as [->|N]; [rewrite !upd_same; reflexivity|].
    rewrite !upd_other by exact N. specialize (RI j). destruct (cs_items s j) as [q|] eqn:E; [|exact RI].
    destruct RI as (y & o' & H1 & H2). exists y, o'. split; [|exact H2]. apply (Hother j); auto.
  - intros g g' q H1 H2. destruct (Nat.eq_dec g i) as [->|N], (Nat.eq_dec g' i) as [->|N']; auto;
      rewrite ?upd_same, ?upd_other in * by assumption; try discriminate. eauto.
  - intros q y H. apply cell_put_some in H as [[N H]|[-> H]]; [|discriminate]. destruct (WI q y H) as (g & Hg). exists g.
    rewrite upd_other; [exact Hg|]. intros ->. congruence.
Qed.

(** Sets. *)
Lemma rel_new_set s a j y : rel s a -> cs_sets s j = None ->
  rel (with_set (with_memory s (set_sets (cs_memory s) (m_sets (cs_memory s) ++ [Some y])))
                j (Some (length (m_sets (cs_memory s)))))
      (a_set a j (Some y)).
Proof.
  intros R Hj.
  assert (Hin : forall i q, cs_sets s i = Some q -> (q < length (m_sets (cs_memory s)))%nat).
  { intros i q Hi. pose proof (r_sets _ _ R i) as H. rewrite Hi in H. destruct H as (z & H & _). exact (cell_lt _ _ _ H). }
  destruct R as [RF RI RS RC RV OF OI OS OT WF WT WI WS RW]. constructor; cbn [with_memory with_set set_sets cs_memory cs_files
    cs_items cs_sets cs_sections cs_values cs_world m_files m_trees m_items m_sets a_set as_files as_items as_sets
    as_sections as_values as_world]; auto.
  - intros i. destruct (Nat.eq_dec i j) as [->|N].
    + rewrite !upd_same. exists y. rewrite cell_app_new. auto.
    + rewrite !upd_other by exact N. specialize (RS i). destruct (cs_sets s i) as [q|] eqn:E; [|exact RS].
      destruct RS as (z & H1 & H2). exists z. split; [|exact H2].
      rewrite cell_app_old by (eapply Hin; eauto). exact H1.
  - intros c. specialize (RC c). destruct (cs_sections s c); [|exact RC]. destruct RC as (o & H1 & H2). exists o. split; [exact H1|].
    destruct o as [[z i]|]; cbn in *; [|apply dead_app; exact H2]. rewrite upd_other; [exact H2|]. intros ->. destruct H2. congruence.
  - intros c. specialize (RV c). destruct (cs_values s c); [|exact RV]. destruct RV as (o & H1 & H2). exists o. split; [exact H1|].
    destruct o as [[[z i] k]|]; cbn in *; [|apply dead_app; exact H2]. rewrite upd_other; [exact H2|]. intros ->.
    destruct H2 as (_ & _ & H2). congruence.
  - intros g g' q H1 H2. destruct (Nat.eq_dec g j) as [->|N], (Nat.eq_dec g' j) as [->|N']; auto;
      rewrite ?upd_same, ?upd_other in * by assumption.
    + injection H1 as <-. apply Hin in H2. lia.
    + injection H2 as <-. apply Hin in H1. lia.
    + eauto.
  - intros q z H. apply cell_app_some in H as [H|[-> H]].
    + destruct (WS q z H) as (g & Hg'). exists g. rewrite upd_other; [exact Hg'|]. intros ->. congruence.
    + exists j. apply upd_same.
Qed.

Lemma rel_drop_set s a i p y : rel s a -> cs_sets s i = Some p -> cell (m_sets (cs_memory s)) p = Some y ->
  rel (with_set (with_memory s (set_sets (cs_memory s) (put (m_sets (cs_memory s)) p None))) i None)
      (a_set (kill_parts a i) i None).
Proof.
  intros R Hi Hc. pose proof (dead_new _ _ _ Hc) as Hdead.
  assert (Hother : forall g q y, cs_sets s g = Some q -> g <> i -> cell (m_sets (cs_memory s)) q = y ->
            forall z, cell (put (m_sets (cs_memory s)) p z) q = y).
  { intros g q y' Hg' N H z. rewrite cell_put_other; [exact H|]. intros ->. apply N. exact (r_one_set _ _ R _ _ _ Hg' Hi). }
  destruct R as [RF RI RS RC RV OF OI OS OT WF WT WI WS RW]. constructor; cbn [with_memory with_set set_sets cs_memory cs_files
    cs_items cs_sets cs_sections cs_values cs_world m_files m_trees m_items m_sets a_set kill_parts as_files as_items as_sets
    as_sections as_values as_world]; auto.
  - intros j. destruct (Nat.eq_dec j i) as [->|N]; [rewrite !upd_same; reflexivity|].
    rewrite !upd_other by exact N. specialize (RS j). destruct (cs_sets s j) as [q|] eqn:E; [|exact RS].
    destruct RS as (z & H1 & H2). exists z. split; [|exact H2]. apply (Hother j); auto.
  - intros c. specialize (RC c). destruct (cs_sections s c) as [q|]; [|rewrite RC; reflexivity]. destruct RC as (o & H1 & H2). rewrite H1.
    destruct o as [[z k]|]; cbn in H2.
    + destruct H2 as [-> H2]. destruct (Nat.eqb_spec z i) as [->|N].
      * exists None. split; [reflexivity|]. cbn. rewrite Hi in H2. injection H2 as <-. exact Hdead.
      * eexists. split; [reflexivity|]. cbn. rewrite upd_other by exact N. auto.
    + exists None. split; [reflexivity|]. cbn. apply dead_put. exact H2.
  - intros c. specialize (RV c). destruct (cs_values s c) as [q|]; [|rewrite RV; reflexivity]. destruct RV as (o & H1 & H2). rewrite H1.
    destruct o as [[[z k] j]|]; cbn in H2.
    + destruct H2 as (-> & -> & H2). destruct (Nat.eqb_spec z i) as [->|N].
      * exists None. split; [reflexivity|]. cbn. rewrite Hi in H2. injection H2 as <-. exact Hdead.
      * eexists. split; [reflexivity|]. cbn. rewrite upd_other by exact N. auto.
    + exists None. split; [reflexivity|]. cbn. apply dead_put. exact H2.
  - intros g g' q H1 H2. destruct (Nat.eq_dec g i) as [->|N], (Nat.eq_dec g' i) as [->|N']; auto;
      rewrite ?upd_same, ?upd_other in * by assumption; try discriminate. eauto.
  - intros q z H. apply cell_put_some in H as [[N H]|[-> H]]; [|discriminate]. destruct (WS q z H) as (g & Hg). exists g.
    rewrite upd_other; [exact Hg|]. intros ->. congruence.
Qed.

Lemma rel_section s a c p o : rel s a ->
  match p with None => o = None | Some p => exists q, o = Some q /\ part_good s p q end ->
  rel (with_section s c p) (a_section a c o).
Proof.
  intros R H. destruct R as [RF RI RS RC RV OF OI OS OT WF WT WI WS RW]. constructor; cbn; auto.
  intros j. destruct (Nat.eq_dec j c) as [->|N]; [rewrite !upd_same|rewrite !upd_other by exact N; apply RC].
  destruct p; exact H.
Qed.

Lemma rel_value s a c p o : rel s a ->
  match p with None => o = None | Some p => exists q, o = Some q /\ value_good s p q end ->
  rel (with_value s c p) (a_value a c o).
Proof.
  intros R H. destruct R as [RF RI RS RC RV OF OI OS OT WF WT WI WS RW]. constructor; cbn; auto.
  intros j. destruct (Nat.eq_dec j c) as [->|N]; [rewrite !upd_same|rewrite !upd_other by exact N; apply RV].
  destruct p; exact H.
Qed.

(** * One call *)
Lemma freed_sub_nodes k : sub_nodes freed_tree k = Undef.
Proof. destruct k; reflexivity. Qed.
Lemma freed_node_value k : node_value freed_tree k = Undef.
Proof. destruct k; reflexivity. Qed.
Lemma freed_path char by_name s k : (forall k n, by_name k n = Undef) ->
  sub_item_by_path char by_name s k = Ok (Some k) \/
  forall by_name' k', (forall k n, by_name' k n = Undef) ->
    sub_item_by_path char by_name' s k' = sub_item_by_path char by_name s k.
Proof.
  intros H. unfold sub_item_by_path. destruct ((zlen s =? 0) || (zlen s =? 1)); [left; reflexivity|].
  set (index := match znth s 0 with Some c => if c =? SEPARATOR then 1 else 0 | None => 0 end).
  replace (length s + 1)%nat with (S (length s)) by lia. cbn [path_loop].
  destruct (index <? zlen s); [right|left; reflexivity]. intros by_name' k' H'.
  destruct (path_segment (length s + 1) char s index) as [[i b]| | |]; try reflexivity. cbn [rbind].
  cbv beta iota zeta. match goal with |- context [if ?c then _ else _] => destruct c end; [reflexivity|]. rewrite H, H'. reflexivity.
Qed.
Lemma freed_path_empty char by_name by_name' s k k' : (forall k n, by_name k n = Undef) -> (forall k n, by_name' k n = Undef) ->
  sub_item_by_path char by_name s k = Ok (Some k) -> sub_item_by_path char by_name' s k' = Ok (Some k').
Proof.
  intros H H'. unfold sub_item_by_path. destruct ((zlen s =? 0) || (zlen s =? 1)); [reflexivity|].
  set (index := match znth s 0 with Some c => if c =? SEPARATOR then 1 else 0 | None => 0 end).
  replace (length s + 1)%nat with (S (length s)) by lia. cbn [path_loop].
  destruct (index <? zlen s); [|reflexivity].
  destruct (path_segment (length s + 1) char s index) as [[i b]| | |]; try discriminate. cbn [rbind].
  cbv beta iota zeta. match goal with |- context [if ?c then _ else _] => destruct c end; [discriminate|]. rewrite H. discriminate.
Qed.

(** A lookup through a dangling item. *)
Lemma freed_found lib e e' k k' l :
  tree_found lib e freed_tree k l = Ok (Some k) /\ tree_found lib e' freed_tree k' l = Ok (Some k') \/
  tree_found lib e freed_tree k l = tree_found lib e' freed_tree k' l.
Proof.
  assert (H8 : forall e k n, sub_node_by_utf8_name (cl_una lib) e freed_tree k n = Undef)
    by (intros; unfold sub_node_by_utf8_name; rewrite freed_sub_nodes; reflexivity).
  assert (H16 : forall e k n, sub_node_by_utf16_name (cl_una lib) e freed_tree k n = Undef)
    by (intros; unfold sub_node_by_utf16_name; rewrite freed_sub_nodes; reflexivity).
  destruct l as [i|n|n|p|p]; cbn [tree_found].
  - right. unfold get_sub_item. rewrite !freed_sub_nodes. reflexivity.
  - right. rewrite !H8. reflexivity.
  - right. rewrite !H16. reflexivity.
  - unfold sub_item_by_utf8_path. destruct (freed_path (una_utf8_char (cl_una lib)) _ p k (H8 e)) as [H|H].
    + left. split; [exact H|]. exact (freed_path_empty _ _ _ _ _ _ (H8 e) (H8 e') H).
    + right. symmetry. apply H. apply H8.
  - unfold sub_item_by_utf16_path. destruct (freed_path (una_utf16_char (cl_una lib)) _ p k (H16 e)) as [H|H].
    + left. split; [exact H|]. exact (freed_path_empty _ _ _ _ _ _ (H16 e) (H16 e') H).
    + right. symmetry. apply H. apply H16.
Qed.

Lemma api_tree s a it o : rel s a -> item_good s it o -> tree_in (cs_memory s) (ci_tree it) = a_tree a o.
Proof.
  intros R H. destruct o as [[[f k] c]|]; cbn in H |- *; unfold tree_in.
  - destruct H as (_ & _ & Hf & x & Hc). destruct (tree_of_live _ _ R _ _ _ _ Hf Hc) as (E & t & E1 & E2).
    rewrite E, E1, E2. reflexivity.
  - destruct H as [_ H]. rewrite H. reflexivity.
Qed.

Lemma api_order s a it f k c : rel s a -> item_good s it (Some (f, k, c)) ->
  order_in (cs_memory s) it = a_order a (Some (f, k, c)).
Proof.
  intros R (_ & _ & Hf & x & Hc). destruct (tree_of_live _ _ R _ _ _ _ Hf Hc) as (E & _).
  unfold order_in, a_order. rewrite Hc, E. reflexivity.
Qed.

Lemma api_entry s a it o : rel s a -> item_good s it o -> entry_in (cs_memory s) it = a_entry a o.
Proof.
  intros R H. unfold entry_in, a_entry. rewrite (api_tree _ _ _ _ R H). destruct o as [[[f k] c]|].
  - destruct H as (<- & _). reflexivity.
  - cbn. rewrite !freed_node_value. reflexivity.
Qed.

Lemma api_values lib s a it o q : rel s a -> item_good s it o -> item_value lib (cs_memory s) it q = a_item_value lib a o q.
Proof.
  intros R H. pose proof (api_entry _ _ _ _ R H) as He. pose proof (api_tree _ _ _ _ R H) as Ht.
  destruct o as [[[f k] c]|].
  - pose proof (api_order _ _ _ _ _ _ R H) as Ho. destruct H as (Hk & _).
    destruct q; cbn [item_value a_item_value]; rewrite ?He, ?Ho, ?Ht; auto. rewrite <- Hk. reflexivity.
  - assert (Hn : a_entry a None = Undef) by apply freed_node_value.
    destruct q; cbn [item_value a_item_value]; rewrite ?He, ?Hn, ?Ht; auto.
    unfold get_number_of_sub_items. cbn [a_tree]. rewrite !freed_sub_nodes. reflexivity.
Qed.

Lemma api_streams s a it o : rel s a -> item_good s it o -> stream_in (cs_memory s) it = a_stream a o.
Proof.
  intros R H. unfold stream_in. rewrite (api_entry _ _ _ _ R H). destruct o as [[[f k] c]|]; cbn [a_stream].
  - destruct H as (_ & _ & Hf & x & Hc). destruct (tree_of_live _ _ R _ _ _ _ Hf Hc) as (E & _). rewrite Hc, E. reflexivity.
  - replace (a_entry a None) with (@Undef dirent) by (symmetry; apply freed_node_value). reflexivity.
Qed.

Lemma part_values s a p o : rel s a -> part_good s p o -> section_in (cs_memory s) p = a_part a o.
Proof.
  intros R H. unfold section_in. destruct o as [[x i]|]; cbn in *.
  - destruct H as [-> H]. pose proof (r_sets _ _ R x) as Hs. rewrite H in Hs. destruct Hs as (y & H1 & H2). rewrite H1, H2. reflexivity.
  - destruct H as [_ H]. rewrite H. reflexivity.
Qed.

Lemma value_values s a p o : rel s a -> value_good s p o -> value_in (cs_memory s) p = a_part_value a o.
Proof.
  intros R H. unfold value_in. destruct p as [p j']. destruct o as [[[x i] j]|]; cbn [value_good fst snd a_part_value] in *.
  - destruct H as (-> & -> & H). rewrite (part_values s a p (Some (x, snd p)) R); [reflexivity|]. cbn. auto.
  - rewrite (part_values s a p None R H). reflexivity.
Qed.

(** What a call on a file does to its tree. *)
Lemma open_handle_shape u ev w x h flags r x' w' : file_open_handle u ev w x h flags = (r, x', w') -> closed_empty x ->
  closed_empty x' /\ (r = Ok tt -> fs_data x = None /\ fs_handle x = None) /\ (r <> Ok tt -> file_tree x' = file_tree x).
Proof.
  unfold closed_empty, file_open_handle, file_tree. intros H He.
  destruct (fs_handle x) as [h0|] eqn:Eh; [injection H as <- <- <-; rewrite Eh; repeat split; auto; congruence|].
  specialize (He eq_refl).
  destruct (negb (flag_read flags) && negb (flag_write flags)); [injection H as <- <- <-; repeat split; auto; congruence|].
  destruct (flag_write flags); [injection H as <- <- <-; repeat split; auto; congruence|].
  destruct (negb (ev_is_open ev)); [injection H as <- <- <-; repeat split; auto; congruence|]. cbv zeta in H.
  destruct (_ && negb (ev_open ev)).
  { destruct (fs_opened x); injection H as <- <- <-; cbn; repeat split; auto; congruence. }
  destruct (file_open_read u (ev_reader ev) (fs_io x) (fs_data x)) as [q io1] eqn:Eq.
  destruct q as [fd| | |].
  - injection H as <- <- <-. cbn. split; [discriminate|]. split; [|congruence]. intros _. split; [|reflexivity].
    destruct (fs_data x); [discriminate Eq|reflexivity].
  - destruct (_ && _); injection H as <- <- <-; cbn; repeat split; auto; congruence.
  - injection H as <- <- <-. repeat split; auto; congruence.
  - injection H as <- <- <-. repeat split; auto; congruence.
Qed.

Definition opens (op : file_op) : bool :=
  match op with FOpen _ | FOpenHandle _ _ => true | _ => false end.
Lemma opening_shape u ev op x w r x' w' : opens op = true -> file_step u ev op x w = (r, x', w') -> closed_empty x ->
  closed_empty x' /\ (r = FDone -> file_tree x = None) /\ (r <> FDone -> file_tree x' = file_tree x).
Proof.
  intros Ho H He. destruct op; try discriminate Ho; cbn [file_step] in H.
  - unfold file_open in H. cbv zeta in H. destruct (file_open_handle _ _ _ _ _ _) as [[q x1] w1] eqn:E.
    destruct (open_handle_shape _ _ _ _ _ _ _ _ _ E He) as (H1 & H2 & H3). unfold closed_empty, file_tree in *.
    destruct q as [[]| | |]; injection H as <- <- <-; cbn in *; (split; [auto|]); split; try congruence.
    + intros _. destruct (H2 eq_refl) as [-> _]. reflexivity.
    + intros _. apply H3. discriminate.
    + intros _. apply H3. discriminate.
    + intros _. apply H3. discriminate.
  - destruct (file_open_handle _ _ _ _ _ _) as [[q x1] w1] eqn:E.
    destruct (open_handle_shape _ _ _ _ _ _ _ _ _ E He) as (H1 & H2 & H3).
    injection H as <- <- <-. split; [exact H1|]. destruct q as [[]| | |]; cbn; split; try congruence; unfold file_tree in *.
    + intros _. destruct (H2 eq_refl) as [-> _]. reflexivity.
    + intros _. apply H3. discriminate.
    + intros _. apply H3. discriminate.
    + intros _. apply H3. discriminate.
Qed.

Lemma query_shape u ev q op x w r x' w' : query_op q = Some op -> file_step u ev op x w = (r, x', w') -> closed_empty x ->
  closed_empty x' /\ file_tree x' = file_tree x.
Proof.
  intros Hq H He. destruct q; try discriminate Hq; injection Hq as <-; cbn [file_step] in H; try (injection H as <- <- <-; auto).
  destruct (file_set_codepage x codepage) as [r0 x0] eqn:E. unfold file_set_codepage in E.
  destruct (existsb _ codepages); injection E as <- <-; injection H as <- <- <-; auto.
Qed.

Lemma tree_none s a f p x t : rel s a -> cs_files s f = Some p -> cell (m_files (cs_memory s)) p = Some (x, t) ->
  file_tree x = None -> t = None.
Proof.
  intros R Hf Hc Hx. destruct t as [b|]; [|reflexivity].
  destruct (tree_of_live _ _ R _ _ _ _ Hf Hc) as (_ & t & _ & H). congruence.
Qed.

Lemma kill_none s a f p x : rel s a -> cs_files s f = Some p -> cell (m_files (cs_memory s)) p = Some (x, None) ->
  forall i, as_items (kill_items a f) i = as_items a i.
Proof.
  intros R Hf Hc i. cbn. pose proof (r_items _ _ R i) as H. destruct (cs_items s i) as [q|]; [|rewrite H; reflexivity].
  destruct H as (it & o & _ & H2 & H3). rewrite H2. destruct o as [[[g k] c]|]; [|reflexivity].
  destruct (Nat.eqb_spec g f) as [->|N]; [|reflexivity]. destruct H3 as (_ & _ & E3 & y & E4). rewrite Hf in E3.
  assert (E : p = ci_file it) by congruence. rewrite <- E, Hc in E4. discriminate.
Qed.

Lemma rel_kill s a f p x : rel s a -> cs_files s f = Some p -> cell (m_files (cs_memory s)) p = Some (x, None) ->
  rel s (kill_items a f).
Proof.
  intros R Hf Hc. pose proof (kill_none _ _ _ _ _ R Hf Hc) as HK.
  destruct R as [RF RI RS RC RV OF OI OS OT WF WT WI WS RW]. constructor; auto.
  intros i. specialize (RI i). rewrite HK. exact RI.
Qed.

Lemma put_put {A} (m : heap A) a b c : put (put m a b) a c = put m a c.
Proof. revert a. induction m as [|y m IH]; intros [|a]; cbn; auto. f_equal. apply IH. Qed.

Lemma new_item_sim ce s a fp f tp t j r r' o : rel s a -> cs_items s j = None -> as_items a j = None ->
  tree_in (cs_memory s) tp = match t with Some t => t | None => freed_tree end ->
  (r = r' \/ tree_in (cs_memory s) tp = freed_tree /\ exists k k', r = Ok (Some k) /\ r' = Ok (Some k')) ->
  (tree_in (cs_memory s) tp <> freed_tree -> forall k, item_good s {| ci_file := fp; ci_tree := tp; ci_node := k; ci_cursor := 0 |}
     (Some (f, k, 0))) ->
  o = new_item ce fp tp j r s ->
  fst o = fst (a_new_item ce f t j r' a) /\ rel (snd o) (snd (a_new_item ce f t j r' a)).
Proof.
  intros R Hj Hj' Ht Hr Hg ->. unfold new_item, a_new_item. rewrite <- Ht. destruct Hr as [<-|(HF & k & k' & -> & ->)].
  - destruct r as [[k|]| | |]; cbn; auto. destruct (ce_memory ce); cbn; auto.
    destruct (node_value _ k) as [d| | |] eqn:E; cbn; auto. split; [reflexivity|].
    apply (rel_new_item s a j _ (Some (f, k, 0)) R Hj). apply Hg. intros H. rewrite H, freed_node_value in E. discriminate.
  - destruct (ce_memory ce); cbn; auto. rewrite HF, !freed_node_value. auto.
Qed.

Lemma file_opening_sim lib ce f op s a : opens op = true -> rel s a ->
  let o := a_on_file a f (fun x => match file_step (cl_una lib) (ce_io ce) op x (as_world a) with
             (r, x', w') => (of_file r, a_world (a_file a f (Some x')) w') end) in
  fst (file_opening lib ce f op s) = fst o /\ rel (snd (file_opening lib ce f op s)) (snd o).
Proof.
  intros Ho R. unfold a_on_file, file_opening, on_file. rewrite <- (r_world _ _ R). pose proof (r_files _ _ R f) as HF.
  destruct (cs_files s f) as [p|] eqn:Ef; [|rewrite HF; auto].
  destruct HF as (x & t & H1 & H2 & H3 & H4). rewrite H1, H2.
  destruct (file_step (cl_una lib) (ce_io ce) op x (cs_world s)) as [[r x'] w'] eqn:E.
  destruct (opening_shape _ _ _ _ _ _ _ _ Ho E H4) as (S1 & S2 & S3).
  assert (Hsame : r <> FDone \/ file_tree x' = None -> rel (with_world (with_memory s (put_file (cs_memory s) p (x', t))) w')
            (a_world (a_file a f (Some x')) w')).
  { intros Hn. apply rel_world. eapply rel_file_same; eauto. destruct Hn as [Hn|Hn]; [auto|]. destruct r; auto.
    - rewrite Hn, S2; reflexivity.
    - apply S3. discriminate.
    - apply S3. discriminate.
    - apply S3. discriminate.
    - apply S3. discriminate.
    - apply S3. discriminate.
    - apply S3. discriminate. }
  destruct r; try (cbn [fst snd]; split; [reflexivity|]; apply Hsame; left; discriminate).
  destruct (file_tree x') as [tr|] eqn:Et; [|cbn [fst snd]; split; [reflexivity|]; apply Hsame; auto].
  cbn [fst snd]. split; [reflexivity|]. apply rel_world.
  rewrite (tree_none _ _ _ _ _ _ R Ef H1 (S2 eq_refl)) in H1. exact (rel_open _ _ _ _ _ _ _ R Ef H1 Et S1).
Qed.

Lemma file_item_sim ce f lookup i s a : rel s a -> (forall x, file_tree x = None -> forall k, lookup x <> Ok (Some k)) ->
  fst (file_item ce f lookup i s) = fst (a_file_item ce f lookup i a) /\
  rel (snd (file_item ce f lookup i s)) (snd (a_file_item ce f lookup i a)).
Proof.
  intros R HL. unfold file_item, a_file_item, on_file, a_on_file. pose proof (r_files _ _ R f) as HF.
  destruct (cs_files s f) as [p|] eqn:Ef; [|rewrite HF; auto].
  destruct HF as (x & t & H1 & H2 & H3 & H4). rewrite H1, H2. pose proof (r_items _ _ R i) as HI.
  destruct (cs_items s i) as [q|] eqn:Ei; [destruct HI as (it & o & _ & H5 & _); rewrite H5; auto|]. rewrite HI.
  eapply new_item_sim; [exact R|exact Ei|exact HI| |left; reflexivity| |reflexivity].
  - destruct t as [b|]; unfold tree_in.
    + destruct H3 as (tr & E1 & ->). rewrite E1. reflexivity.
    + cbn in H3. rewrite H3. replace (cell (m_trees (cs_memory s)) (length (m_trees (cs_memory s)))) with (@None tree); [reflexivity|].
      unfold cell. replace (nth_error _ _) with (@None (option tree)); [reflexivity|]. symmetry. apply nth_error_None. lia.
  - intros Hn k. destruct t as [b|].
    + cbn. do 2 (split; [reflexivity|]). split; [exact Ef|]. exists x. exact H1.
    + exfalso. apply Hn. unfold tree_in, cell. replace (nth_error _ _) with (@None (option tree)); [reflexivity|].
      symmetry. apply nth_error_None. lia.
Qed.

Lemma path_no_tree u e p k : item_by_utf8_path u e None p <> Ok (Some k) /\ item_by_utf16_path u e None p <> Ok (Some k).
Proof.
  unfold item_by_utf8_path, item_by_utf16_path. split.
  - destruct (sub_item_by_path _ _ p 0) as [[j|]| | |]; cbn; discriminate.
  - destruct (sub_item_by_path _ _ p 0) as [[j|]| | |]; cbn; discriminate.
Qed.

Lemma step_sim lib ce c s a : rel s a ->
  fst (c_step lib ce c s) = fst (a_step lib ce c a) /\ rel (snd (c_step lib ce c s)) (snd (a_step lib ce c a)).
Proof.
  intros R. destruct c; cbn [c_step a_step].
  - (* FileInitialize *)
    unfold file_initialize. pose proof (r_files _ _ R f) as HF. destruct (cs_files s f) as [p|] eqn:Ef.
    + destruct HF as (x & t & _ & H2 & _). rewrite H2. auto.
    + rewrite HF. destruct (ce_memory ce); cbn [fst snd]; auto. split; [reflexivity|]. apply rel_new_file; assumption.
  - (* FileFree *)
    unfold c_file_free. pose proof (r_files _ _ R f) as HF. destruct (cs_files s f) as [p|] eqn:Ef; [|rewrite HF; auto].
    destruct HF as (x & t & H1 & H2 & H3 & H4). rewrite H1, H2, <- (r_world _ _ R).
    destruct (file_free (ce_io ce) (cs_world s) x) as [r w'] eqn:E. cbn [fst snd]. split; [reflexivity|]. apply rel_world.
    assert (Hm : match fs_handle x with Some _ => tree_free (cs_memory s) t | None => cs_memory s end = tree_free (cs_memory s) t).
    { destruct (fs_handle x) eqn:Eh; [reflexivity|]. rewrite (tree_none _ _ _ _ _ _ R Ef H1 (H4 Eh)). reflexivity. }
    rewrite Hm. pose proof (rel_close _ _ _ _ _ _ new_file R Ef H1 eq_refl) as R1.
    assert (Ef1 : cs_files (with_memory s (put_file (tree_free (cs_memory s) t) p (new_file, None))) f = Some p) by exact Ef.
    assert (Hmf : m_files (tree_free (cs_memory s) t) = m_files (cs_memory s)) by (destruct t; reflexivity).
    assert (Hc1 : cell (m_files (cs_memory (with_memory s (put_file (tree_free (cs_memory s) t) p (new_file, None))))) p = Some (new_file, None)).
    { cbn. rewrite Hmf. apply cell_put_same. exact (cell_lt _ _ _ H1). }
    pose proof (rel_drop_file _ _ _ _ _ R1 Ef1 Hc1) as R2.
    replace (with_file (with_memory s (set_files (tree_free (cs_memory s) t) (put (m_files (tree_free (cs_memory s) t)) p None))) f None)
      with (with_file (with_memory (with_memory s (put_file (tree_free (cs_memory s) t) p (new_file, None)))
              (set_files (cs_memory (with_memory s (put_file (tree_free (cs_memory s) t) p (new_file, None))))
                (put (m_files (cs_memory (with_memory s (put_file (tree_free (cs_memory s) t) p (new_file, None))))) p None))) f None).
    2: { unfold with_file, with_memory, put_file, set_files. cbn. rewrite put_put. reflexivity. }
    destruct R2 as [RF RI RS RC RV OF OI OS OT WF WT WI WS RW]. constructor; auto.
    intros g. specialize (RF g). cbn in RF |- *. destruct (Nat.eq_dec g f) as [->|N].
    + rewrite !upd_same in *. exact RF.
    + rewrite !upd_other in * by exact N. exact RF.
  - apply file_opening_sim; auto.
  - apply file_opening_sim; auto.
  - (* FileClose *)
    unfold c_file_close, on_file, a_on_file. pose proof (r_files _ _ R f) as HF. destruct (cs_files s f) as [p|] eqn:Ef; [|rewrite HF; auto].
    destruct HF as (x & t & H1 & H2 & H3 & H4). rewrite H1, H2, <- (r_world _ _ R). cbn [file_step]. unfold file_close.
    destruct (fs_handle x) as [h|] eqn:Eh; [|auto]. cbn [fst snd]. split; [reflexivity|]. apply rel_world.
    apply (rel_close _ _ _ _ _ _ _ R Ef H1). reflexivity.
  - (* FileCall *)
    unfold file_call, on_file, a_on_file. pose proof (r_files _ _ R f) as HF. destruct (cs_files s f) as [p|] eqn:Ef; [|rewrite HF; auto].
    destruct HF as (x & t & H1 & H2 & H3 & H4). rewrite H1, H2, <- (r_world _ _ R).
    destruct (query_op q) as [op|] eqn:Eq; [|auto].
    destruct (file_step (cl_una lib) (ce_io ce) op x (cs_world s)) as [[r x'] w'] eqn:E. cbn [fst snd]. split; [reflexivity|].
    destruct (query_shape _ _ _ _ _ _ _ _ _ Eq E H4) as (S1 & S2). eapply rel_file_same; eauto.
  - apply file_item_sim; [exact R|]. intros x -> k. discriminate.
  - apply file_item_sim; [exact R|]. intros x -> k. apply path_no_tree.
  - apply file_item_sim; [exact R|]. intros x -> k. apply path_no_tree.
  - (* ItemFree *)
    unfold item_free. pose proof (r_items _ _ R i) as HI. destruct (cs_items s i) as [p|] eqn:Ei.
    + destruct HI as (it & o & H1 & _). rewrite H1. cbn [fst snd]. split; [reflexivity|]. eapply rel_drop_item; eauto.
    + cbn [fst snd]. split; [reflexivity|]. destruct R as [RF RI RS RC RV OF OI OS OT WF WT WI WS RW]. constructor; auto.
      intros j. specialize (RI j). cbn. destruct (Nat.eq_dec j i) as [->|N]; [rewrite upd_same, Ei; reflexivity|].
      rewrite upd_other by exact N. exact RI.
  - (* ItemCall *)
    unfold on_item. pose proof (r_items _ _ R i) as HI. destruct (cs_items s i) as [p|] eqn:Ei; [|rewrite HI; auto].
    destruct HI as (it & o & H1 & H2 & H3). rewrite H1, H2. cbn [fst snd]. split; [|exact R]. apply api_values; assumption.
  - (* ItemSub *)
    unfold item_sub, on_item. pose proof (r_items _ _ R i) as HI. destruct (cs_items s i) as [p|] eqn:Ei; [|rewrite HI; auto].
    destruct HI as (it & o & H1 & H2 & H3). rewrite H1, H2. pose proof (r_items _ _ R j) as HJ.
    destruct (cs_items s j) as [q|] eqn:Ej; [destruct HJ as (it' & o' & _ & H5 & _); rewrite H5; auto|]. rewrite HJ.
    eapply new_item_sim; [exact R|exact Ej|exact HJ|exact (api_tree _ _ _ _ R H3)| | |reflexivity].
    + change (sub_found lib (cs_memory s) it l)
        with (tree_found lib (order_in (cs_memory s) it) (tree_in (cs_memory s) (ci_tree it)) (ci_node it) l).
      rewrite (api_tree _ _ _ _ R H3). destruct o as [[[f k] c]|].
      * left. rewrite (api_order _ _ _ _ _ _ R H3). destruct H3 as (<- & _). reflexivity.
      * cbn [a_tree a_order a_node].
        destruct (freed_found lib (order_in (cs_memory s) it) Little (ci_node it) 0%nat l) as [[E1 E2]|E].
        -- right. split; [reflexivity|]. eauto.
        -- left. exact E.
    + intros Hn k. destruct o as [[[f k'] c]|].
      * destruct H3 as (_ & _ & H4 & H5). cbn. auto.
      * exfalso. apply Hn. rewrite (api_tree _ _ _ _ R H3). reflexivity.
  - (* ItemStream *)
    unfold item_stream, on_item. pose proof (r_items _ _ R i) as HI. destruct (cs_items s i) as [p|] eqn:Ei; [|rewrite HI; auto].
    destruct HI as (it & o & H1 & H2 & H3). rewrite H1, H2, (api_streams _ _ _ _ R H3).
    destruct o as [[[f k] c]|]; [|auto]. destruct (a_stream a (Some (f, k, c))) as [[[d v] cp]|]; [|auto].
    destruct H3 as (Hk & Hcu & H3). rewrite <- Hcu. destruct (item_step _ _ _ _ _) as [r c']. cbn [fst snd].
    split; [reflexivity|]. eapply rel_move_item; eauto. cbn. auto.
  - (* ItemSet *)
    unfold item_set, on_item. pose proof (r_items _ _ R i) as HI. destruct (cs_items s i) as [p|] eqn:Ei; [|rewrite HI; auto].
    destruct HI as (it & o & H1 & H2 & H3). rewrite H1, H2. pose proof (r_sets _ _ R x) as HS.
    destruct (cs_sets s x) as [q|] eqn:Ex; [destruct HS as (y & _ & H5); rewrite H5; auto|]. rewrite HS.
    destruct (negb (ce_memory ce)); [auto|]. rewrite (api_streams _ _ _ _ R H3).
    destruct o as [[[f k] c]|]; [|auto]. destruct (a_stream a (Some (f, k, c))) as [[[d v] cp]|]; [|auto].
    destruct H3 as (Hk & Hcu & H3). rewrite <- Hcu.
    destruct (fst (get_set _ _ _ _ _ _ _)) as [[y c']| | |]; cbn [fst snd]; auto; (split; [reflexivity|]).
    + assert (R1 : rel (with_memory s (move_item (cs_memory s) p it c')) (a_item a i (Some (Some (f, k, c'))))).
      { eapply rel_move_item; eauto. cbn. auto. }
      exact (rel_new_set _ _ x y R1 Ex).
    + eapply rel_move_item; eauto. cbn. auto.
  - (* SetFree *)
    unfold c_set_free. pose proof (r_sets _ _ R x) as HS. destruct (cs_sets s x) as [q|] eqn:Ex; [|rewrite HS; auto].
    destruct HS as (y & H1 & H2). rewrite H1, H2. cbn [fst snd]. split; [reflexivity|]. eapply rel_drop_set; eauto.
  - unfold on_set. pose proof (r_sets _ _ R x) as HS. destruct (cs_sets s x) as [q|] eqn:Ex; [|rewrite HS; auto].
    destruct HS as (y & H1 & H2). rewrite H1, H2. auto.
  - unfold on_set. pose proof (r_sets _ _ R x) as HS. destruct (cs_sets s x) as [q|] eqn:Ex; [|rewrite HS; auto].
    destruct HS as (y & H1 & H2). rewrite H1, H2. auto.
  - (* SetSection *)
    unfold set_section, on_set. pose proof (r_sets _ _ R x) as HS. destruct (cs_sets s x) as [q|] eqn:Ex; [|rewrite HS; auto].
    destruct HS as (y & H1 & H2). rewrite H1, H2. pose proof (r_sections _ _ R c) as HC.
    destruct (cs_sections s c) as [p|] eqn:Ec; [destruct HC as (o & -> & _); auto|]. rewrite HC.
    destruct (get_section y index); cbn [fst snd]; auto. split; [reflexivity|]. apply rel_section; [exact R|].
    eexists. split; [reflexivity|]. cbn. auto.
  - cbn [fst snd]. split; [reflexivity|]. apply rel_section; [exact R|]. reflexivity.
  - pose proof (r_sections _ _ R c) as HC. destruct (cs_sections s c) as [p|] eqn:Ec; [|rewrite HC; auto].
    destruct HC as (o & H1 & H2). rewrite H1. destruct (size <? 16); [auto|]. rewrite (part_values _ _ _ _ R H2).
    destruct (a_part a o); auto.
  - unfold on_section. pose proof (r_sections _ _ R c) as HC. destruct (cs_sections s c) as [p|] eqn:Ec; [|rewrite HC; auto].
    destruct HC as (o & H1 & H2). rewrite H1. rewrite (part_values _ _ _ _ R H2). destruct (a_part a o); auto.
  - (* SectionValue *)
    unfold section_value. pose proof (r_sections _ _ R c) as HC. destruct (cs_sections s c) as [p|] eqn:Ec; [|rewrite HC; auto].
    destruct HC as (o & H1 & H2). rewrite H1. pose proof (r_values _ _ R v) as HV.
    destruct (cs_values s v) as [q|] eqn:Ev; [destruct HV as (o' & -> & _); auto|]. rewrite HV.
    rewrite (part_values _ _ _ _ R H2). destruct o as [[x i]|]; [|auto].
    destruct (a_part a (Some (x, i))) as [y|]; [|auto]. destruct (get_property y index); cbn [fst snd]; auto.
    split; [reflexivity|]. apply rel_value; [exact R|]. eexists. split; [reflexivity|]. destruct H2 as [-> H2]. cbn. auto.
  - cbn [fst snd]. split; [reflexivity|]. apply rel_value; [exact R|]. reflexivity.
  - pose proof (r_values _ _ R v) as HV. destruct (cs_values s v) as [p|] eqn:Ev; [|rewrite HV; auto].
    destruct HV as (o & H1 & H2). rewrite H1, (value_values _ _ _ _ R H2). destruct (a_part_value a o); auto.
  - cbn [fst snd]. split; [reflexivity|]. rewrite <- (r_world _ _ R). apply rel_world. exact R.
  - cbn [fst snd]. split; [reflexivity|]. rewrite <- (r_world _ _ R). apply rel_world. exact R.
Qed.

Lemma run_sim lib h : forall s a, rel s a ->
  fst (c_run lib h s) = fst (a_run lib h a) /\ rel (snd (c_run lib h s)) (snd (a_run lib h a)).
Proof.
  induction h as [|[ce c] h IH]; intros s a R; cbn; [auto|].
  destruct (step_sim lib ce c s a R) as [E1 E2]. destruct (c_step lib ce c s) as [x s1], (a_step lib ce c a) as [x' a1].
  cbn in E1, E2. subst x'. destruct (IH _ _ E2) as [F1 F2].
  destruct (c_run lib h s1) as [r s2], (a_run lib h a1) as [r' a2]. cbn in *. subst r'. auto.
Qed.
