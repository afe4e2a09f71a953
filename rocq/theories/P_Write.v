(** C61: files that are written after the documentation of the format are read
    back. *)
From Coq Require Import ZArith List Bool Lia.
From Verif Require Import Base Spec_IO M_Header M_Table M_Load M_Stream M_Tree M_Open M_Item
  Spec_Stream Spec_Load Spec_Tree Spec_Open Spec_Content Spec_Write L_Base L_Write3 L_Write4 L_Write6 L_Write7 X_File.
Import ListNotations.
Open Scope Z_scope.

(** * Examples *)
Definition xw_doc : document :=
  {| doc_name := [82; 0; 0; 0]; doc_ctime := 0; doc_mtime := 132000000000000000;
     doc_items :=
       AddStream [97; 0; 0; 0] 1 2 [10; 20; 30]
         (AddStorage [98; 0; 0; 0] 3 (2 ^ 63)
            (AddStorage [99; 0] 0 0 (AddStream [100; 0] 0 0 [] Empty)
               (AddStream [101; 0; 0; 0] 5 6 (map (fun k => Z.of_nat k mod 256) (seq 7 600)) Empty))
            (AddStorage [] 0 0 Empty
               (AddStream [97; 0; 0; 0] 0 (2 ^ 64 - 1) (repeat 255 100) Empty))) |}.

Definition xw_format (e : endian) : format :=
  {| fm_order := e; fm_sector := 9; fm_short := 6; fm_minimum := 101 |}.

Lemma xw_bytes l : xf_bytes l = true -> Forall is_byte l.
Proof. apply xf_bytes_ok. Qed.

Lemma xw_writable e : writable (xw_format e) xw_doc.
Proof.
  constructor.
  - cbn. lia.
  - cbn. lia.
  - cbn. unfold is_u32. lia.
  - split; [vm_compute; discriminate|now apply xw_bytes].
  - cbn [names_ok w_items doc_items xw_doc]. repeat split; try (vm_compute; discriminate); now apply xw_bytes.
  - cbn [doc_ctime doc_mtime xw_doc]. lia.
  - cbn [times_ok w_items doc_items xw_doc]. lia.
  - apply Forall_forall. intros s Hs. cbn [w_items doc_items xw_doc streams app] in Hs.
    destruct Hs as [<-|[<-|[<-|[<-|[]]]]]; (split; [now apply xw_bytes|reflexivity]).
  - reflexivity.
  - vm_compute. discriminate.
  - vm_compute. discriminate.
  - vm_compute. discriminate.
Qed.

Definition xw_open (e : endian) := open_read xf_una (file_reader (write (xw_format e) xw_doc)) [].

(** * C61 *)
Theorem C61_round_trip :
  forall u rd fm doc,
    una_ok u -> writable fm doc ->
    comparable u (fm_order fm) (doc_name doc) -> names_ok (comparable u (fm_order fm)) (doc_items doc) ->
    io_bytes rd -> io_sound rd (write fm doc) -> io_total rd (write fm doc) ->
    exists o t, open_read u rd [] = (Ok o, t) /\
      match doc_items doc with
      | Empty => o_tree o = None
      | _ => exists tr nd, o_tree o = Some tr /\ nth_error (tr_nodes tr) 0 = Some nd /\
               de_type (n_entry nd) = 5 /\ de_name (n_entry nd) = doc_name doc /\
               de_ctime (n_entry nd) = doc_ctime doc /\ de_mtime (n_entry nd) = doc_mtime doc /\
               shows rd (opened_volume o) tr (n_subs nd) (doc_items doc)
      end.
Proof.
  intros u rd fm doc Hu W HC HCs HB HS HT.
  destruct (written_opens u rd fm doc Hu W HC HCs HB HS HT) as (o & t & H1 & H2 & H3 & H4 & H5).
  exists o, t. split; [exact H1|].
  pose proof (written_tree u rd fm doc Hu W HCs HB HS HT o t H1 H2 H3 H4 H5) as H.
  destruct (doc_items doc); [exact H| |]; destruct H as (tr & nd & E1 & E2 & E3 & E4); exists tr, nd; rewrite E3; auto 10.
Qed.
Print Assumptions C61_round_trip.

(** The client that walks over all items and reads all streams gets the
    document. *)
Theorem C61_read_back :
  forall u rd fm doc fuel,
    una_ok u -> writable fm doc -> few_blocks fm doc ->
    comparable u (fm_order fm) (doc_name doc) -> names_ok (comparable u (fm_order fm)) (doc_items doc) ->
    io_bytes rd -> io_sound rd (write fm doc) -> io_total rd (write fm doc) ->
    doc_items doc <> Empty -> (depth (doc_items doc) <= fuel)%nat ->
    exists o t, open_read u rd [] = (Ok o, t) /\ read_back fuel rd o = Some doc.
Proof.
  intros u rd fm doc fuel Hu W HF HC HCs HB HS HT HE HD.
  destruct (written_opens u rd fm doc Hu W HC HCs HB HS HT) as (o & t & H1 & H2 & H3 & H4 & H5).
  exists o, t. split; [exact H1|].
  pose proof (written_tree u rd fm doc Hu W HCs HB HS HT o t H1 H2 H3 H4 H5) as H.
  assert (G : exists tr nd, o_tree o = Some tr /\ nth_error (tr_nodes tr) 0 = Some nd /\ n_entry nd = w_root fm doc /\
                shows rd (opened_volume o) tr (n_subs nd) (doc_items doc)) by (destruct (doc_items doc); [congruence|exact H|exact H]).
  clear H. destruct G as (tr & nd & E1 & E2 & E3 & E4). unfold read_back. rewrite E1. cbn [get_root_item].
  unfold node_value. rewrite E2. rewrite (items_below_shows rd (opened_volume o) tr fuel 0 nd _ E2 E4); [|..|exact HD].
  - rewrite E3. destruct doc. reflexivity.
  - destruct HF as [HF|HF]; [left|now right]. cbn [opened_volume v_sector_size v_short_sector_size]. rewrite H2.
    cbn [w_h header_of_values fh_sector_size fh_short_sector_size w_header_values hv_sector_exponent hv_short_exponent].
    pose proof (wr_sector _ _ W). change 4 with (2 ^ 2). split; apply Z.pow_le_mono_r; lia.
Qed.
Print Assumptions C61_read_back.

(** Different documents are written as different files. *)
Theorem C61_injective :
  forall fm1 fm2 doc1 doc2,
    writable fm1 doc1 -> few_blocks fm1 doc1 -> writable fm2 doc2 -> few_blocks fm2 doc2 ->
    write fm1 doc1 = write fm2 doc2 -> doc1 = doc2.
Proof.
  intros fm1 fm2 doc1 doc2 W1 F1 W2 F2 E.
  set (u := {| una_utf8_compare := fun _ _ _ => Ok false; una_utf16_compare := fun _ _ _ => Ok false;
               una_utf8_char := una_utf8_char xf_una; una_utf16_char := una_utf16_char xf_una |}).
  assert (Hu : una_ok u) by (constructor; intros; exact I || (destruct xf_una_ok; auto)).
  assert (HC : forall e n, comparable u e n) by (intros e n; split; intros _; discriminate).
  assert (HCs : forall e x, names_ok (comparable u e) x) by (intros e x; induction x; cbn [names_ok]; auto).
  set (rd := file_reader (write fm1 doc1)).
  assert (HB : io_bytes rd) by (apply file_reader_bytes, write_bytes, W1).
  destruct (written_opens u rd fm1 doc1 Hu W1 (HC _ _) (HCs _ _) HB (file_reader_sound _) (file_reader_total _)) as (o & t & H1 & H2 & H3 & H4 & H5).
  destruct (written_opens u rd fm2 doc2 Hu W2 (HC _ _) (HCs _ _) HB) as (o' & t' & H1' & H2' & H3' & H4' & H5').
  { unfold rd. rewrite E. apply file_reader_sound. }
  { unfold rd. rewrite E. apply file_reader_total. }
  rewrite H1 in H1'. injection H1' as <- <-. clear H3 H4 H3' H4'. rewrite H5 in H5'.
  assert (HN : forall fm doc, nth_error (w_directory fm doc) 0 = Some (w_root fm doc)) by reflexivity.
  pose proof (HN fm1 doc1) as HR. rewrite H5', HN in HR. injection HR as R1 R2 R3 R4 _ _.
  set (n := Nat.max (depth (doc_items doc1)) (depth (doc_items doc2))).
  assert (Q1 : doc_items doc1 <> Empty -> read_back n rd o = Some doc1).
  { intros HE. destruct (C61_read_back u rd fm1 doc1 n Hu W1 F1 (HC _ _) (HCs _ _) HB (file_reader_sound _) (file_reader_total _) HE ltac:(lia)) as (o1 & t1 & A & B).
    rewrite H1 in A. injection A as <- <-. exact B. }
  assert (Q2 : doc_items doc2 <> Empty -> read_back n rd o = Some doc2).
  { intros HE. destruct (C61_read_back u rd fm2 doc2 n Hu W2 F2 (HC _ _) (HCs _ _) HB) as (o1 & t1 & A & B); auto.
    - unfold rd. rewrite E. apply file_reader_sound.
    - unfold rd. rewrite E. apply file_reader_total.
    - lia.
    - rewrite H1 in A. injection A as <- <-. exact B. }
  unfold w_items in R2. destruct doc1 as [n1 c1 m1 x1], doc2 as [n2 c2 m2 x2]. cbn [doc_name doc_ctime doc_mtime doc_items] in *.
  destruct x1, x2; try discriminate R2; try (rewrite Q1 in Q2 by discriminate; assert (Q := Q2 ltac:(discriminate)); congruence).
  congruence.
Qed.
Print Assumptions C61_injective.

Example C61_case :
  (forall e, writable (xw_format e) xw_doc /\ few_blocks (xw_format e) xw_doc /\
     comparable xf_una e (doc_name xw_doc) /\ names_ok (comparable xf_una e) (doc_items xw_doc) /\
     zlen (write (xw_format e) xw_doc) = 4096) /\
  depth (doc_items xw_doc) = 3%nat /\
  forall e, match xw_open e with
            | (Ok o, _) => read_back 3 (file_reader (write (xw_format e) xw_doc)) o = Some xw_doc
            | _ => False
            end.
Proof.
  split; [|split].
  - intros e. split; [apply xw_writable|]. split; [left; cbn; lia|]. split; [split; intros H; vm_compute in H; discriminate H|].
    split; [cbn [names_ok doc_items xw_doc]; repeat split; intros H; vm_compute in H; discriminate H|].
    destruct e; vm_compute; reflexivity.
  - reflexivity.
  - intros e. destruct e; vm_compute; reflexivity.
Qed.

(** A document without items. *)
Example C61_empty_case :
  let doc := {| doc_name := [82; 0]; doc_ctime := 1; doc_mtime := 2; doc_items := Empty |} in
  writable (xw_format Big) doc /\
  match open_read xf_una (file_reader (write (xw_format Big) doc)) [] with
  | (Ok o, _) => o_tree o = None
  | _ => False
  end.
Proof.
  split; [|vm_compute; reflexivity].
  constructor.
  - cbn. lia.
  - cbn. lia.
  - cbn. unfold is_u32. lia.
  - split; [vm_compute; discriminate|now apply xw_bytes].
  - exact I.
  - cbn [doc_ctime doc_mtime]. lia.
  - exact I.
  - constructor.
  - reflexivity.
  - vm_compute. discriminate.
  - vm_compute. discriminate.
  - vm_compute. discriminate.
Qed.
