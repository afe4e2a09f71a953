(** A file with 258 sectors of short sector allocation table, for a concrete
    case: sectors of 128 bytes, short sectors of one byte. *)
From Coq Require Import ZArith List Bool Lia ZifyBool.
From Verif Require Import Base Spec_IO Spec_Stream Spec_Load Spec_Tree Spec_Open L_Base M_Table M_Header M_Load M_Stream
  M_Tree M_Open M_Item X_File.
Import ListNotations.
Open Scope Z_scope.

Definition xs_header_values : header_values :=
  {| hv_minor := 62; hv_major := 3; hv_sector_exponent := 7; hv_short_exponent := 0;
     hv_sat_sectors := 11; hv_root := 14; hv_minimum := 100; hv_ssat := 16; hv_ssat_sectors := 258;
     hv_msat := EOC; hv_msat_sectors := 0;
     hv_msat_values := [3; 4; 5; 6; 7; 8; 9; 10; 11; 12; 13] ++ repeat FREE 98 |}.

Definition xs_header : list Z :=
  encode_header Little xf_signature (zeros 16) (zeros 10) (zeros 4) [] xs_header_values.

(** The chain of [n] sectors from [first]. *)
Definition xs_chain (first : Z) (n : nat) : list Z :=
  map (fun k => first + Z.of_nat k + 1) (seq 0 (n - 1)) ++ [EOC].

(** Sectors 0-2 lie in the header, 3-13 are the SAT, 14-15 the directory,
    16-273 the SSAT, 274-338 the short sectors. *)
Definition xs_sat : list Z :=
  let l := repeat FREE 14 ++ xs_chain 14 2 ++ xs_chain 16 258 ++ xs_chain 274 65 in
  l ++ repeat FREE (352 - length l).

(** Short sector 8224 is followed by 8225. *)
Definition xs_ssat : list Z := repeat FREE (257 * 32) ++ [8225; EOC] ++ repeat FREE 30.

Definition xs_values (l : list Z) : list Z := concat (map (bytes_of Little 4) l).

Definition xs_file : list Z :=
  xs_header ++ xs_values xs_sat ++
  xf_slot Little [82] 5 FREE FREE 1 274 8320 ++
  xf_slot Little [97] 2 FREE FREE FREE 8224 2 ++
  xs_values xs_ssat ++ xf_data 7 8320.

Definition xs_open := open_read xf_una (file_reader xs_file) [].

Definition xs_stream : dirent :=
  {| de_id := 1; de_type := 2; de_name := [97; 0; 0; 0]; de_prev := FREE; de_next := FREE; de_sub := FREE;
     de_ctime := 1000; de_mtime := 2000; de_sector := 8224; de_size := 2 |}.

(** ** What the file says *)
Definition xs_entries : list dirent :=
  [{| de_id := 0; de_type := 5; de_name := [82; 0; 0; 0]; de_prev := FREE; de_next := FREE; de_sub := 1;
      de_ctime := 1000; de_mtime := 2000; de_sector := 274; de_size := 8320 |}; xs_stream].

Definition xs_h : file_header := decoded Little (slice xs_file 0 512).

(** The sectors of the short table. *)
Definition xs_ids : list Z := map (fun k => 16 + Z.of_nat k) (seq 0 258).

(** The short table the library has. *)
Definition xs_ssat_loaded : list Z :=
  words_of_sectors Little xs_file 128 (firstn 257 xs_ids) ++ zeros 32.

(** Chains, computed. *)
Fixpoint xs_linked (sat : list Z) (ids : list Z) : bool :=
  match ids with
  | a :: (b :: _) as ids' =>
      match znth sat a with Some x => x =? b | None => false end && xs_linked sat ids'
  | _ => true
  end.
Lemma xs_linked_ok sat first ids : hd first ids = first -> xs_linked sat ids = true -> chain_start sat first ids.
Proof.
  intros Hh Hl k. revert Hh Hl. 
  assert (H : forall (j : nat) id0 ids, nth_sector sat first j id0 -> hd id0 ids = id0 -> xs_linked sat ids = true ->
     forall k id, nth_error ids k = Some id -> nth_sector sat first (j + k) id).
  { clear. intros j id0 ids. revert j id0. induction ids as [|a ids IH]; intros j id0 Hj Hh Hl k id Hk; [destruct k; discriminate|].
    cbn in Hh. subst a. destruct k as [|k].
    - injection Hk as <-. now rewrite Nat.add_0_r.
    - destruct ids as [|b ids]; [destruct k; discriminate|].
      cbn [xs_linked] in Hl. apply andb_true_iff in Hl as [Hl1 Hl2].
      destruct (znth sat id0) as [x|] eqn:E; [|discriminate]. apply Z.eqb_eq in Hl1. subst x.
      rewrite <- Nat.add_succ_comm. apply (IH (S j) b); auto. econstructor; eauto. }
  intros Hh Hl id Hk. apply (H O first ids); auto. constructor.
Qed.

Lemma xs_file_len : zlen xs_file = 43520.
Proof. vm_compute. reflexivity. Qed.

Lemma xs_inside ids : forallb (fun id => ((id + 1) mod 4294967296) * 128 + 128 <=? 43520) ids = true ->
  Forall (sector_inside xs_file 128) ids.
Proof.
  intros H. apply Forall_forall. intros x Hx. rewrite forallb_forall in H. specialize (H x Hx).
  unfold sector_inside, request. cbn [fst]. rewrite xs_file_len. lia.
Qed.

Lemma xs_h_eq : xs_h = header_of_values Little xs_header_values.
Proof. vm_compute. reflexivity. Qed.

Lemma xs_moderate : moderate xs_h.
Proof. rewrite xs_h_eq. unfold moderate. cbn. lia. Qed.

Lemma xs_slots_long e bytes n :
  forallb (fun k => let s := slot_of bytes k in (value_at Little s 66 1 =? 0) || (value_at e s 64 2 <=? 128)) (seq 0 n) = true ->
  forall k, (k < n)%nat -> ~ long_name e (slot_of bytes k).
Proof.
  intros H k Hk [H1 H2]. rewrite forallb_forall in H. specialize (H k ltac:(apply in_seq; lia)). cbn zeta in H.
  unfold slot_empty in H1. lia.
Qed.

Lemma xs_says : file_says xs_file xs_h (hv_msat_values xs_header_values) xs_sat xs_ssat_loaded xs_entries.
Proof.
  unfold file_says. rewrite xs_h_eq. cbn [header_of_values fh_byte_order fh_sector_size fh_msat_sector_identifier
    fh_number_of_msat_sectors fh_number_of_sat_sectors fh_ssat_sector_identifier fh_number_of_ssat_sectors
    fh_root_directory_sector_identifier].
  change (2 ^ hv_sector_exponent xs_header_values) with 128.
  split.
  { split; [vm_compute; discriminate|]. split; [left; vm_compute; reflexivity|].
    split; [vm_compute; reflexivity|]. split; vm_compute; discriminate. }
  split; [symmetry; exact xs_h_eq|]. split; [lia|].
  split; [left; split; [reflexivity|]; split; [reflexivity|vm_compute; reflexivity]|].
  split.
  { exists 11%nat. split; [vm_compute; discriminate|]. split; [apply Nat.leb_le; vm_compute; reflexivity|].
    split; [apply xs_inside; vm_compute; reflexivity|]. split; [left; reflexivity|]. vm_compute. reflexivity. }
  split.
  { exists (firstn 257 xs_ids). split; [vm_compute; discriminate|]. split; [vm_compute; discriminate|].
    split; [apply xs_linked_ok; vm_compute; reflexivity|].
    split.
    { apply Forall_forall. intros x Hx.
      assert (H : forallb (fun x => (x <? 1000)) (firstn 257 xs_ids) = true) by (vm_compute; reflexivity).
      rewrite forallb_forall in H. specialize (H x Hx). unfold EOC, FREE. lia. }
    split; [apply xs_inside; vm_compute; reflexivity|]. split; [right; left; reflexivity|]. reflexivity. }
  split; [discriminate|].
  exists [14; 15], EOC. split; [apply xs_linked_ok; vm_compute; reflexivity|].
  split.
  { apply ns_next with (id := 15); [|vm_compute; reflexivity]. apply ns_next with (id := 14); [constructor|vm_compute; reflexivity]. }
  split; [repeat constructor; cbn; intuition discriminate|].
  split; [repeat constructor; discriminate|].
  split; [apply xs_inside; vm_compute; reflexivity|].
  split; [left; split; [auto|vm_compute; discriminate]|].
  split; [apply xs_slots_long; vm_compute; reflexivity|].
  vm_compute. reflexivity.
Qed.

Lemma xs_create : exists tr, create_tree xf_una Little xs_entries = Ok (Some tr) /\ tr_container_start tr = 274.
Proof. eexists. split; vm_compute; reflexivity. Qed.
