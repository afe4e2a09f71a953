(** C89: the bytes of a file that count. *)
From Coq Require Import ZArith List Bool Lia ZifyBool.
From Verif Require Import Base Spec_IO M_Header M_Table M_Load M_Stream M_Tree M_Open M_Item
  Spec_Stream Spec_Load Spec_Tree Spec_Open Spec_Content L_Base L_Stream L_Open2 X_File X_Stream Spec_Write
  Spec_Stores L_Stores L_Stores2 X_Stores P_Stores Spec_Fault L_Fault2 P_Fault Spec_Foot L_Foot X_Foot.
Import ListNotations.
Open Scope Z_scope.

(** * Theorems *)

(** Another file with the same bytes where they count for opening is opened
    with the same result, whatever its other bytes are. *)
Theorem C89_opens :
  forall u rd f f' o t,
    una_ok u -> Forall is_byte f -> io_bytes rd -> io_sound rd f' -> io_total rd f' ->
    open_read u (file_reader f) [] = (Ok o, t) -> moderate (o_header o) -> opens_alike f f' o ->
    exists t', open_read u rd [] = (Ok o, t').
Proof. exact open_alike. Qed.
Print Assumptions C89_opens.

(** A stream has the same bytes if those at its positions are the same. *)
Theorem C89_stream :
  forall rd rd' f f' v d s,
    io_sound rd f -> io_total rd f -> io_sound rd' f' -> io_total rd' f' ->
    is_readable_stream rd v d s -> (forall p, stream_byte v d p -> keeps f f' p) ->
    is_readable_stream rd' v d s.
Proof.
  intros rd rd' f f' v d s HS HT HS' HT' (H1 & H2 & H3 & H4 & H5 & f0 & HS0 & HT0 & HC) HA.
  rewrite <- (file_unique rd f f0 HS HT HS0 HT0) in HC.
  split; [exact H1|]. split; [exact H2|]. split; [exact H3|]. split; [exact H4|]. split; [exact H5|]. exists f'.
  split; [exact HS'|]. split; [exact HT'|]. now apply contents_alike with (f := f).
Qed.
Print Assumptions C89_stream.

(** A document is in these bytes only. *)
Theorem C89_stores :
  forall u f f' h root doc o t,
    una_ok u -> stores u f h root doc -> open_read u (file_reader f) [] = (Ok o, t) ->
    Forall is_byte f' -> reads_alike f f' o -> stores u f' h root doc.
Proof. intros u f f' h root doc o t Hu HF HO. now apply stores_alike with (o := o) (t := t). Qed.
Print Assumptions C89_stores.

(** Whoever writes to other places than those that opening looks at can change
    the bytes of streams, but no items. *)
Theorem C89_overwrite :
  forall u f f' h root doc o t,
    una_ok u -> stores u f h root doc -> open_read u (file_reader f) [] = (Ok o, t) ->
    Forall is_byte f' -> zlen f <= zlen f' -> opens_alike f f' o ->
    exists doc', same_document doc doc' /\ stores u f' h root doc'.
Proof. intros u f f' h root doc o t Hu HF HO. now apply stores_other with (o := o) (t := t). Qed.
Print Assumptions C89_overwrite.

(** Bytes that follow the file do not count, if no sector that opening needs
    is among them. *)
Theorem C89_appended :
  forall u f x h root doc o t,
    una_ok u -> stores u f h root doc -> open_read u (file_reader f) [] = (Ok o, t) ->
    Forall is_byte x ->
    (forall id, needed_sector f o id -> sector_inside (f ++ x) (fh_sector_size h) id -> sector_inside f (fh_sector_size h) id) ->
    stores u (f ++ x) h root doc.
Proof.
  intros u f x h root doc o t Hu HF HO Hx HN.
  destruct (stored_parts u f h root doc Hu HF o t HO) as (ds & Hf & HSy & _ & Eh & _).
  assert (HK : forall p, keeps f (f ++ x) p).
  { intros p b Hb. rewrite znth_app_l; [exact Hb|]. apply znth_range in Hb. lia. }
  pose proof (zlen_nonneg x) as Hz.
  apply (C89_stores u f (f ++ x) h root doc o t Hu HF HO); [apply Forall_app; auto|]. split; [split; [|split]|]; auto.
  - intros _. rewrite zlen_app. destruct HSy as ((G & _) & _). unfold zlen, slice in *. rewrite firstn_length, skipn_length in G. lia.
  - intros id Hid. rewrite Eh. split; intros G; [|now apply HN]. unfold sector_inside in *. rewrite zlen_app. lia.
Qed.
Print Assumptions C89_appended.

(** A file that is cut off behind the last byte that counts holds the document. *)
Theorem C89_cut :
  forall u f n h root doc o t,
    una_ok u -> stores u f h root doc -> open_read u (file_reader f) [] = (Ok o, t) ->
    needed_before f o n ->
    (forall d, In d (o_entries o) -> de_type d = 2 -> stream_before (opened_volume o) d n) ->
    stores u (cut n f) h root doc.
Proof.
  intros u f n h root doc o t Hu HF HO (H0 & HN) HD.
  destruct (stored_parts u f h root doc Hu HF o t HO) as (ds & Hf & HSy & _ & Eh & _ & HR & _).
  assert (Hss : 0 < fh_sector_size (o_header o)) by (rewrite Eh; destruct HSy as (_ & _ & G & _); lia).
  assert (H512 : 512 <= zlen f).
  { destruct HSy as ((G & _) & _). unfold zlen, slice in G |- *. rewrite firstn_length, skipn_length in G. lia. }
  apply (C89_stores u f (cut n f) h root doc o t Hu HF HO); [now apply cut_bytes|]. split; [split; [|split]|].
  - intros p Hp b Hb. apply znth_cut; [exact Hb|].
    assert (HI : forall id q, needed_sector f o id -> sector_inside f (fh_sector_size (o_header o)) id ->
      in_sector (fh_sector_size (o_header o)) id q -> q < n).
    { intros id q G1 G2 G3. specialize (HN id G1 G2). unfold in_sector in G3. lia. }
    destruct Hp as [Hp|[(id & Hp & HI1 & Hq)|(k & id & j & Hp & HI1 & Hj & Hj2 & Hq)]].
    + unfold header_byte in Hp. lia.
    + apply (HI id); auto. destruct Hp as [Hp|Hp]; [now left|right; now left].
    + apply (HI id); auto; [right; right; now exists k|]. unfold in_sector. unfold slot_byte in Hq. lia.
  - intros _. rewrite zlen_cut; lia.
  - intros id Hid. split; intros G; [|now apply cut_inside in G]. apply inside_cut; auto.
  - intros d p Hd Ht (i & Hi & Hp) b Hb. apply znth_cut; [exact Hb|]. now apply (HD d Hd Ht i).
Qed.
Print Assumptions C89_cut.

(** * Cases *)

(** The file of X_File with every byte changed that does not count, and with
    700 more at its end. *)
Definition positions (o : opened) : list Z :=
  flat_map (fun '(q, n) => map (fun k => q + Z.of_nat k) (seq 0 (Z.to_nat n))) (spans (xf_file Little) o [0; 2] [1; 6]) ++
  flat_map (fun d => if de_type d =? 2
                     then flat_map (fun i => match stream_position_c (opened_volume o) d (Z.of_nat i) with Some q => [q] | None => [] end)
                                   (seq 0 (Z.to_nat (de_size d)))
                     else []) (o_entries o).

Fixpoint change (ps : list Z) (p : Z) (l : list Z) : list Z :=
  match l with
  | [] => []
  | b :: l' => (if existsb (Z.eqb p) ps then b else (b + 1) mod 256) :: change ps (p + 1) l'
  end.

Definition xr_file : list Z :=
  match open_read xf_una (file_reader (xf_file Little)) [] with
  | (Ok o, _) => change (positions o) 0 (xf_file Little) ++ repeat 7 700
  | _ => []
  end.

Definition differences (a b : list Z) : Z := zlen (filter (fun '(x, y) => negb (x =? y)) (combine a b)).

Example C89_case :
  exists h root o t, stores xf_una (xf_file Little) h root (xf_document Little) /\
    open_read xf_una (file_reader (xf_file Little)) [] = (Ok o, t) /\
    reads_alike (xf_file Little) xr_file o /\ differences (xf_file Little) xr_file = 1684 /\
    stores xf_una xr_file h root (xf_document Little).
Proof.
  destruct (xf_stores Little) as (h & root & HS & _).
  destruct (open_read xf_una (file_reader (xf_file Little)) []) as [r t] eqn:E.
  assert (HC : match r with
               | Ok o => alike_c (xf_file Little) xr_file o = true /\ streams_c (xf_file Little) xr_file o = true
               | _ => False
               end).
  { change r with (fst (r, t)). rewrite <- E. vm_compute. split; reflexivity. }
  destruct r as [o| | |]; try destruct HC. pose proof (streams_c_ok _ _ _ H H0) as HA.
  exists h, root, o, t. split; [exact HS|]. split; [reflexivity|]. split; [exact HA|]. split; [vm_compute; reflexivity|].
  apply (C89_stores xf_una (xf_file Little) xr_file h root (xf_document Little) o t xf_una_ok HS E); [|exact HA].
  apply xf_bytes_ok. vm_compute. reflexivity.
Qed.

(** Single bytes that count: of the header, of the SAT, the type of an unused
    slot, and of a stream. *)
Definition set_byte (p b : Z) (f : list Z) : list Z := slice f 0 p ++ b :: slice f (p + 1) (zlen f - p - 1).

Definition shows_document (f : list Z) (doc : document) : bool :=
  match open_read xf_una (file_reader f) [] with
  | (Ok o, _) => match read_back 8 (file_reader f) o with
                 | Some d => match doc_items d, doc_items doc with
                             | AddStream n c m s _, AddStream n' c' m' s' _ =>
                                 list_eqb n n' && (c =? c') && (m =? m') && list_eqb s s'
                             | _, _ => false
                             end
                 | None => false
                 end
  | _ => false
  end.

Example C89_counting_case :
  shows_document (xf_file Little) (xf_document Little) = true /\
  shows_document (set_byte 8 1 (xf_file Little)) (xf_document Little) = true /\
  map (fun '(p, b) => shows_document (set_byte p b (xf_file Little)) (xf_document Little))
      [(30, 8); (516, 9); (1024 + 128 + 65, 1); (2048, 77)] = [false; false; false; false].
Proof. vm_compute. auto. Qed.
