(** C85: files that hold a document, whatever their layout. *)
From Coq Require Import ZArith List Bool Lia.
From Verif Require Import Base Spec_IO M_Header M_Table M_Load M_Stream M_Tree M_Open M_Item
  Spec_Stream Spec_Load Spec_Tree Spec_Open Spec_Content L_Base L_Open2 L_Exact L_Session X_File Spec_Write L_Write L_Write2 L_Write3 L_Write4
  L_Write5 L_Write6 L_Write7 P_Write Spec_Stores L_Stores L_Stores2 X_Stores.
Import ListNotations.
Open Scope Z_scope.

(** * Theorems *)

(** A file that holds a document is opened, and its items are those of the
    document.  There is no item tree if the root has no sub link. *)
Theorem C85_open :
  forall u rd f h root doc,
    una_ok u -> stores u f h root doc -> io_bytes rd -> io_sound rd f -> io_total rd f ->
    exists o t, open_read u rd [] = (Ok o, t) /\ o_header o = h /\
      match o_tree o with
      | None => de_sub root = FREE /\ doc_items doc = Empty
      | Some tr =>
          exists nd, nth_error (tr_nodes tr) 0 = Some nd /\ n_entry nd = root /\
            de_type root = 5 /\ de_name root = doc_name doc /\ de_ctime root = doc_ctime doc /\ de_mtime root = doc_mtime doc /\
            shows rd (opened_volume o) tr (n_subs nd) (doc_items doc)
      end.
Proof.
  intros u rd f h root doc Hu H HB HS HT.
  destruct (stored_opens u rd f Hu HB HS HT h root doc H) as (o & t & H1 & H2 & _ & H3 & H4 & H5).
  exists o, t. split; [exact H1|]. split; [exact H2|]. destruct (o_tree o) as [tr|].
  - destruct (H5 tr eq_refl) as (nd & E1 & E2 & _ & E3). destruct (stores_root _ _ _ _ _ H) as (R1 & R2 & R3 & R4 & _).
    exists nd. auto 10.
  - split; [now apply H3|auto].
Qed.
Print Assumptions C85_open.

(** These are all the files for which the library shows the document. *)
Theorem C85_exact :
  forall u rd f h root doc,
    una_ok u -> io_bytes rd -> io_sound rd f -> io_total rd f -> doc_items doc <> Empty ->
    (stores u f h root doc <->
     moderate h /\ de_id root = 0 /\
     exists o t tr nd, open_read u rd [] = (Ok o, t) /\ o_header o = h /\ o_tree o = Some tr /\
       nth_error (tr_nodes tr) 0 = Some nd /\ n_entry nd = root /\
       de_name root = doc_name doc /\ de_ctime root = doc_ctime doc /\ de_mtime root = doc_mtime doc /\
       (forall k d, item_entry tr k d -> de_type d = 1 -> de_size d = 0) /\
       shows rd (opened_volume o) tr (n_subs nd) (doc_items doc)).
Proof.
  intros u rd f h root doc Hu HB HS HT HE. split.
  - intros H. destruct (stores_root _ _ _ _ _ H) as (_ & R2 & R3 & R4 & R5 & R6 & _). split; [exact R6|]. split; [exact R5|].
    destruct (stored_opens u rd f Hu HB HS HT h root doc H) as (o & t & H1 & H2 & _ & H3 & H4 & H5).
    destruct (o_tree o) as [tr|] eqn:Et; [|now elim HE; apply H4].
    destruct (H5 tr eq_refl) as (nd & E1 & E2 & E3 & E4). exists o, t, tr, nd. repeat (split; [assumption|]). split; [|exact E4].
    intros k d (x & Hk & <-). eauto.
  - intros (HM & H0 & o & t & tr & nd & HO & <- & Ht & Hk & <- & N1 & N2 & N3 & HN & HD).
    apply shows_stored with (rd := rd) (t := t) (tr := tr); auto. intros k x Hx. apply (HN k). exists x. auto.
Qed.
Print Assumptions C85_exact.

(** The client that walks over all items and reads all streams gets the
    document. *)
Theorem C85_read_back :
  forall u rd f h root doc fuel,
    una_ok u -> stores u f h root doc -> io_bytes rd -> io_sound rd f -> io_total rd f ->
    de_sub root <> FREE -> 4 <= fh_short_sector_size h \/ Forall (fun s => zlen s <= 2 ^ 30) (streams (doc_items doc)) ->
    (depth (doc_items doc) <= fuel)%nat ->
    exists o t, open_read u rd [] = (Ok o, t) /\ read_back fuel rd o = Some doc.
Proof.
  intros u rd f h root doc fuel Hu H HB HS HT HE HF HD.
  destruct (stored_opens u rd f Hu HB HS HT h root doc H) as (o & t & H1 & H2 & _ & H3 & H4 & H5).
  exists o, t. split; [exact H1|]. destruct (o_tree o) as [tr|] eqn:Et; [|now elim HE; apply H3].
  destruct (H5 tr eq_refl) as (nd & E1 & E2 & _ & E3). destruct (stores_root _ _ _ _ _ H) as (R1 & R2 & R3 & R4 & _).
  unfold read_back. rewrite Et. cbn [get_root_item]. unfold node_value. rewrite E1.
  rewrite (items_below_shows rd (opened_volume o) tr fuel 0 nd _ E1 E3); [|..|exact HD].
  - rewrite E2, R2, R3, R4. destruct doc. reflexivity.
  - destruct HF as [HF|HF]; [left|now right]. cbn [opened_volume v_sector_size v_short_sector_size]. rewrite H2. split; [|exact HF].
    destruct (opened_header u rd Hu HB o t H1) as (_ & Hss & _). rewrite H2 in Hss. lia.
Qed.
Print Assumptions C85_read_back.

(** A file holds one document. *)
Theorem C85_unique :
  forall u f h root doc h' root' doc',
    una_ok u -> stores u f h root doc -> stores u f h' root' doc' -> h = h' /\ root = root' /\ doc = doc'.
Proof. exact stores_unique. Qed.
Print Assumptions C85_unique.

(** The files of the writer are among these, for every document that can be
    written. *)
Theorem C85_written :
  forall u fm doc,
    una_ok u -> writable fm doc -> comparable u (fm_order fm) (doc_name doc) ->
    names_ok (comparable u (fm_order fm)) (doc_items doc) ->
    exists h root, stores u (write fm doc) h root doc /\ fh_byte_order h = fm_order fm /\
      fh_sector_size h = 2 ^ fm_sector fm /\ fh_short_sector_size h = 2 ^ fm_short fm.
Proof.
  intros u fm doc Hu W HC HCs. exists (w_h fm doc), (w_root fm doc). split; [now apply written_stored|].
  split; [reflexivity|]. split; reflexivity.
Qed.
Print Assumptions C85_written.

(** * Examples *)

(** The file of X_File is not one of the writer: its directory is in the
    sectors 1 and 6 and has an unused slot between used ones, its items are
    linked by previous and next links, and its table comes before. *)
Definition xf_document (e : endian) : document :=
  let name l := concat (map (bytes_of e 2) (l ++ [0])) in
  {| doc_name := name [82]; doc_ctime := 1000; doc_mtime := 2000;
     doc_items :=
       AddStream (name [97; 98]) 1000 2000 (slice (xf_data 0 512) 0 70)
         (AddStream (name [99; 100]) 1000 2000 (xf_data 100 512 ++ slice (xf_data 200 512) 0 88)
            (AddStorage (name [115; 116]) 1000 2000
               (AddStream (name [120; 121]) 1000 2000 (slice (xf_data 0 512) 128 10) Empty) Empty)) |}.

Lemma xf_stores e : exists h root, stores xf_una (xf_file e) h root (xf_document e) /\ fh_byte_order h = e /\
  fh_sector_size h = 512 /\ fh_short_sector_size h = 64.
Proof.
  destruct (xf_open e) as [r t] eqn:E. unfold xf_open in E.
  assert (HC : match r with
               | Ok o => document_c 8 (xf_file e) o = Some (xf_document e) /\ o_header o = decoded e (xf_header e)
               | _ => False
               end).
  { change r with (fst (r, t)). rewrite <- E. destruct e; vm_compute; split; reflexivity. }
  destruct r as [o| | |]; try destruct HC. assert (HM : moderate (o_header o)) by (rewrite H0; destruct e; vm_compute; auto).
  destruct (document_c_ok xf_una 8 (xf_file e) o t _ xf_una_ok (xf_file_bytes e) E HM H) as (root & HS).
  exists (o_header o), root. split; [exact HS|]. rewrite H0. destruct e; vm_compute; auto.
Qed.

Definition xf_format : format := {| fm_order := Little; fm_sector := 9; fm_short := 6; fm_minimum := 100 |}.

Lemma xf_writable : writable xf_format (xf_document Little).
Proof.
  constructor.
  - cbn. lia.
  - cbn. lia.
  - cbn. unfold is_u32. lia.
  - split; [vm_compute; discriminate|now apply xw_bytes].
  - cbn [names_ok w_items doc_items xf_document]. repeat split; try (vm_compute; discriminate); now apply xw_bytes.
  - cbn [doc_ctime doc_mtime xf_document]. lia.
  - cbn [times_ok w_items doc_items xf_document]. lia.
  - apply Forall_forall. intros s Hs. cbn [w_items doc_items xf_document streams app] in Hs.
    destruct Hs as [<-|[<-|[<-|[]]]]; (split; [now apply xw_bytes|reflexivity]).
  - reflexivity.
  - vm_compute. discriminate.
  - vm_compute. discriminate.
  - vm_compute. discriminate.
Qed.

Example C85_case :
  (exists h root, stores xf_una (xf_file Little) h root (xf_document Little) /\ 4 <= fh_short_sector_size h) /\
  (exists h root, stores xf_una (xf_file Big) h root (xf_document Big)) /\
  (exists o t, xf_open Big = (Ok o, t) /\ read_back 2 (file_reader (xf_file Big)) o = Some (xf_document Big)) /\
  (exists h root, stores xf_una (write xf_format (xf_document Little)) h root (xf_document Little)) /\
  zlen (write xf_format (xf_document Little)) = 4096 /\
  xf_file Little <> write xf_format (xf_document Little).
Proof.
  split; [|split; [|split; [|split; [|split]]]].
  - destruct (xf_stores Little) as (h & root & H & _ & _ & E). exists h, root. split; [exact H|lia].
  - destruct (xf_stores Big) as (h & root & H & _). eauto.
  - destruct (xf_open Big) as [r t] eqn:E.
    assert (HC : match r with Ok o => read_back 2 (file_reader (xf_file Big)) o = Some (xf_document Big) | _ => False end).
    { change r with (fst (r, t)). rewrite <- E. vm_compute. reflexivity. }
    destruct r as [o| | |]; try destruct HC. exists o, t. auto.
  - destruct (C85_written xf_una xf_format (xf_document Little) xf_una_ok xf_writable) as (h & root & H & _); [| |eauto].
    + split; intros H; vm_compute in H; discriminate H.
    + cbn [names_ok doc_items xf_document]. repeat split; intros H; vm_compute in H; discriminate H.
  - vm_compute. reflexivity.
  - intros H. apply (f_equal (fun l => slice l 516 4)) in H. vm_compute in H. discriminate H.
Qed.
