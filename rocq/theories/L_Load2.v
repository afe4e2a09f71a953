(** Lemmas on the master table, the short sector table and the directory. *)
From Coq Require Import ZArith List Bool Lia ZifyBool ZifyNat.
From Verif Require Import Base Spec_IO Spec_Load L_Base M_Table M_Load M_Stream Spec_Stream
  L_Stream L_Load.
Import ListNotations.
Open Scope Z_scope.

(** * The master table *)
Lemma removelast_values e s pos n :
  removelast (values_from e s pos (S n)) = values_from e s pos n.
Proof.
  unfold values_from. rewrite seq_S, map_app. apply removelast_last.
Qed.

Lemma msat_values_eq e s ss :
  zlen s = ss -> 4 <= ss -> msat_values e s = values_from e s 0 (Z.to_nat (ss / 4 - 1)).
Proof.
  intros H Hs. unfold msat_values. rewrite (words_all e s ss) by auto.
  assert (1 <= ss / 4) by (apply Z.div_le_lower_bound; lia).
  replace (Z.to_nat (ss / 4)) with (S (Z.to_nat (ss / 4 - 1))) by lia.
  apply removelast_values.
Qed.

Definition msat_contents (e : endian) (secs : list (list Z)) : list Z :=
  concat (map (msat_values e) secs).

Lemma msat_loop_eq rd e ss : 4 <= ss -> ss mod 4 = 0 ->
  forall fuel pre M id depth t,
    0 <= M -> 0 <= depth <= 257 -> 258 <= Z.of_nat fuel + depth ->
    exists ids secs last,
      msat_chain e id ids secs last /\ Forall2 (delivered rd ss) ids secs /\
      zlen ids + depth <= 257 /\
      ((msat_loop fuel rd e ss (ss / 4 - 1) (pre ++ zeros M) (zlen pre) id depth t =
          (Ok (pre ++ msat_contents e secs ++ zeros (M - zlen ids * (ss / 4 - 1))),
           t ++ map (request ss) ids) /\
        zlen ids * (ss / 4 - 1) <= M /\
        (last = EOC \/ (M = zlen ids * (ss / 4 - 1) /\ zlen ids + depth <= 256)))
       \/ exists extra,
        msat_loop fuel rd e ss (ss / 4 - 1) (pre ++ zeros M) (zlen pre) id depth t =
          (Err, t ++ map (request ss) (ids ++ extra)) /\
        zlen (ids ++ extra) + depth <= 257).
Proof.
  intros Hss Hm4. assert (HE : 1 <= ss / 4) by (apply Z.div_le_lower_bound; lia).
  assert (HE4 : ss = 4 * (ss / 4)) by (pose proof (Z.div_mod ss 4); lia).
  set (E := ss / 4 - 1) in *.
  induction fuel; intros pre M id depth t HM Hd Hf; [lia|].
  cbn [msat_loop]. change END_OF_CHAIN with EOC. change MAX_TABLE_DEPTH with 256.
  pose proof (zlen_nonneg pre) as Hpre.
  destruct (id =? EOC) eqn:E0.
  { exists [], [], id. split; [constructor|]. split; [constructor|].
    change (zlen (@nil Z)) with 0. split; [lia|]. left. split; [|split; lia].
    unfold msat_contents. cbn [map concat app]. rewrite app_nil_r.
    unfold iret. do 3 f_equal. f_equal. lia. }
  destruct (256 <? depth) eqn:E1.
  { exists [], [], id. split; [constructor|]. split; [constructor|].
    change (zlen (@nil Z)) with 0. split; [lia|]. right. exists [].
    cbn [app map]. rewrite app_nil_r. split; [reflexivity|].
    change (zlen (@nil Z)) with 0. lia. }
  rewrite zlen_app, zlen_zeros by lia.
  destruct (zlen pre + M <=? zlen pre) eqn:E2.
  { exists [], [], id. split; [constructor|]. split; [constructor|].
    change (zlen (@nil Z)) with 0. split; [lia|]. left. split; [|split; lia].
    unfold msat_contents. cbn [map concat app]. rewrite app_nil_r.
    unfold iret. do 3 f_equal. f_equal. lia. }
  unfold read_exact.
  assert (Hbad : exists ids secs last,
      msat_chain e id ids secs last /\ Forall2 (delivered rd ss) ids secs /\
      zlen ids + depth <= 257 /\
      exists extra, map (request ss) (ids ++ extra) = [request ss id] /\
                    zlen (ids ++ extra) + depth <= 257).
  { exists [], [], id. split; [constructor|]. split; [constructor|].
    change (zlen (@nil Z)) with 0. split; [lia|]. exists [id]. split; [reflexivity|].
    cbn [app]. rewrite zlen_cons. change (zlen (@nil Z)) with 0. lia. }
  destruct (sector_read_cases rd ss id t) as [(s & Hr & Hdl)|[Hr Hdl]].
  2: { destruct Hbad as (ids & secs & last & H1 & H2 & H3 & extra & H4 & H5).
       exists ids, secs, last. split; auto. split; auto. split; auto. right. exists extra.
       split; auto. rewrite H4. unfold ibind. rewrite Hr. reflexivity. }
  pose proof (delivered_len _ _ _ _ Hdl) as Hlen.
  assert (Hread : (dio r <- read_at rd (sector_offset id ss) ss;
                   match r with Some l => iret l | None => ierr end) t
                  = (Ok s, t ++ [request ss id])).
  { unfold ibind. rewrite Hr. reflexivity. }
  erewrite ibind_step by exact Hread.
  destruct (Z_lt_ge_dec M E) as [HME|HME].
  - destruct Hbad as (ids & secs & last & H1 & H2 & H3 & extra & H4 & H5).
    exists ids, secs, last. split; auto. split; auto. split; auto. right. exists extra.
    split; auto. rewrite H4. unfold ibind at 1. unfold ilift at 1.
    rewrite msat_sector_loop_short by lia. reflexivity.
  - rewrite (ilift_step _ _ _ _
      (msat_sector_loop_eq e s (Z.to_nat E) 0 pre M ltac:(lia) ltac:(lia) ltac:(lia))).
    cbn beta iota. rewrite (ilift_step _ _ _ (last_word e s)).
    2: { rewrite get_u32_value by lia. unfold last_word. do 2 f_equal. lia. }
    assert (Hw : values_from e s 0 (Z.to_nat E) = msat_values e s)
      by (symmetry; apply msat_values_eq; auto).
    rewrite Hw, app_assoc.
    replace (zlen pre + Z.of_nat (Z.to_nat E)) with (zlen (pre ++ msat_values e s))
      by (rewrite <- Hw, zlen_app, zlen_values_from; lia).
    destruct (IHfuel (pre ++ msat_values e s) (M - Z.of_nat (Z.to_nat E)) (last_word e s)
                (depth + 1) (t ++ [request ss id]))
      as (ids & secs & last & H1 & H2 & H3 & H4); [lia..|].
    exists (id :: ids), (s :: secs), last.
    split; [constructor; auto; lia|]. split; [constructor; auto|].
    rewrite zlen_cons. split; [lia|].
    destruct H4 as [(H4 & H5 & H6)|(extra & H4 & H5)].
    + left. split; [|split; lia]. rewrite H4. unfold msat_contents. cbn [map concat].
      rewrite <- !app_assoc. cbn [app]. do 5 f_equal. f_equal. nia.
    + right. exists extra. rewrite H4. cbn [app map]. rewrite <- app_assoc. cbn [app].
      split; [reflexivity|]. rewrite zlen_cons. lia.
Qed.

(** Number of entries of the master table the library makes. *)
Definition msat_total (ss n : Z) : Z := s32 (109 + (if n =? 0 then 1 else n) * (ss / 4 - 1)).

Lemma read_msat_cases rd e ss hdr id n t :
  power_of_two ss -> zlen hdr = 109 ->
  (* refused *)
  (read_msat rd e ss hdr id n t = (Err, t)) \/
  (* nothing to read *)
  (id = EOC /\ n = 0 /\ read_msat rd e ss hdr id n t = (Ok hdr, t)) \/
  (* a chain *)
  (4 <= ss /\ id <> EOC /\ msat_total ss n <= 33554432 /\
   let M := Z.max 0 (msat_total ss n - 109) in
   exists ids secs last,
      msat_chain e id ids secs last /\ Forall2 (delivered rd ss) ids secs /\
      zlen ids <= 257 /\
      ((read_msat rd e ss hdr id n t =
          (Ok (hdr ++ msat_contents e secs ++ zeros (M - zlen ids * (ss / 4 - 1))),
           t ++ map (request ss) ids) /\
        zlen ids * (ss / 4 - 1) <= M /\
        (last = EOC \/ (M = zlen ids * (ss / 4 - 1) /\ zlen ids <= 256)))
       \/ exists extra,
        read_msat rd e ss hdr id n t = (Err, t ++ map (request ss) (ids ++ extra)) /\
        zlen (ids ++ extra) <= 257)).
Proof.
  intros Hp Hh. pose proof (power_range ss Hp) as Hr. unfold read_msat.
  destruct ((ss =? 0) || (MEMORY_MAXIMUM_ALLOCATION_SIZE <? ss)) eqn:E0.
  { left. reflexivity. }
  destruct (zlen hdr <? 109) eqn:E1; [lia|]. change END_OF_CHAIN with EOC.
  destruct (id =? EOC) eqn:E2.
  { destruct (n =? 0) eqn:E3; cbn [andb].
    - right. left. split; [lia|]. split; [lia|]. reflexivity.
    - left. reflexivity. }
  cbn [andb]. destruct (ss / 4 =? 0) eqn:E3; [left; reflexivity|].
  fold (msat_total ss n). 
  assert (Hss : 4 <= ss) by (destruct (Z_lt_ge_dec ss 4); [rewrite Z.div_small in E3 by lia; discriminate|lia]).
  assert (Hm4 : ss mod 4 = 0).
  { destruct (power_small ss Hp) as [?|(a & Ha & ->)]; [lia|].
    replace a with (a - 2 + 2) by lia. rewrite Z.pow_add_r by lia.
    change (2 ^ 2) with 4. apply Z_mod_mult. }
  destruct (Z_le_gt_dec (msat_total ss n) 33554432) as [Hle|Hgt].
  2: { left. rewrite Hh. destruct (109 <? msat_total ss n) eqn:E4; [|lia].
       unfold table_resize. change TABLE_MAX with 33554432.
       destruct ((msat_total ss n <? 0) || (33554432 <? msat_total ss n)) eqn:E5; [|lia].
       reflexivity. }
  right. right. split; auto. split; [lia|]. split; auto.
  set (M := Z.max 0 (msat_total ss n - 109)). cbn zeta.
  assert (Ht : (if zlen hdr <? msat_total ss n then table_resize hdr (msat_total ss n) else Ok hdr)
               = Ok (hdr ++ zeros M)).
  { rewrite Hh. destruct (109 <? msat_total ss n) eqn:E4.
    - unfold table_resize. change TABLE_MAX with 33554432.
      destruct ((msat_total ss n <? 0) || (33554432 <? msat_total ss n)) eqn:E5; [lia|].
      rewrite Hh, E4. do 3 f_equal. unfold M. lia.
    - replace M with 0 by (unfold M; lia). unfold zeros. simpl. now rewrite app_nil_r. }
  rewrite (ilift_step _ _ _ _ Ht). rewrite <- Hh.
  destruct (msat_loop_eq rd e ss Hss Hm4 258 hdr M id 0 t) as (ids & secs & last & H1 & H2 & H3 & H4);
    [unfold M; lia|lia|lia|].
  exists ids, secs, last. split; auto. split; auto. split; [lia|].
  destruct H4 as [(H4 & H5 & H6)|(extra & H4 & H5)]; [left; split; auto; split; auto; destruct H6 as [?|[? ?]]; [now left|right; split; auto; lia]|right; exists extra; split; auto; lia].
Qed.

(** * The short sector table *)
Lemma ssat_loop_unused rd e ss E sat ssat si n : forall fuel sidx depth t,
  0 <= depth <= 257 -> 258 <= Z.of_nat fuel + depth ->
  ssat_loop fuel rd e ss E sat ssat si UNUSED n sidx depth t = (Ok ssat, t).
Proof.
  induction fuel; intros sidx depth t Hd Hf; [lia|].
  cbn [ssat_loop]. change (UNUSED =? END_OF_CHAIN) with false. cbn iota.
  change MAX_TABLE_DEPTH with 256. destruct (256 <? depth) eqn:E1; [reflexivity|].
  destruct (n <=? sidx); [reflexivity|].
  change (UNUSED =? UNUSED) with true. cbn iota. apply IHfuel; lia.
Qed.

Definition chain_prefix (sat : list Z) (first : Z) (ids : list Z) : Prop :=
  forall k id, nth_error ids k = Some id -> nth_sector sat first k id.

Lemma ssat_loop_eq rd e ss sat : 4 <= ss -> ss mod 4 = 0 -> Forall is_u32 sat -> zlen sat <= 33554432 ->
  forall fuel pre K id n sidx depth t,
    0 <= K -> is_u32 id -> sidx <= n -> 0 <= depth <= 257 -> 258 <= Z.of_nat fuel + depth ->
    exists ids secs extra,
      ssat_loop fuel rd e ss (ss / 4) sat (pre ++ zeros (K * (ss / 4))) (zlen pre) id n sidx depth t
      = (Ok (pre ++ sector_words e secs ++ zeros ((K - zlen ids) * (ss / 4))),
         t ++ map (request ss) (ids ++ extra)) /\
      Forall2 (delivered rd ss) ids secs /\ chain_prefix sat id ids /\
      Forall (fun x => x <> EOC /\ x <> FREE) ids /\
      zlen ids <= K /\ zlen ids <= n - sidx /\ zlen (ids ++ extra) + depth <= 257 /\
      (zlen ids = n - sidx \/ zlen ids + depth = 257 \/ zlen ids = K \/
       (exists x, nth_sector sat id (length ids) x /\
                  (x = EOC \/ x = FREE \/ refused rd ss x (t ++ map (request ss) ids))) \/
       forall x, ~ nth_sector sat id (length ids) x).
Proof.
  intros Hss Hm4 Hsat Hsz. assert (HE : 1 <= ss / 4) by (apply Z.div_le_lower_bound; lia).
  assert (HE4 : ss = 4 * (ss / 4)) by (pose proof (Z.div_mod ss 4); lia).
  set (E := ss / 4) in *.
  induction fuel; intros pre K id n sidx depth t HK Hid Hn Hd Hf; [lia|].
  assert (Hnil : forall o, o = (Ok (pre ++ zeros (K * E)), t) ->
     o = (Ok (pre ++ sector_words e [] ++ zeros ((K - zlen (@nil Z)) * E)),
          t ++ map (request ss) ([] ++ []))).
  { intros o ->. unfold sector_words. cbn [map concat app]. rewrite app_nil_r.
    change (zlen (@nil Z)) with 0. now rewrite Z.sub_0_r. }
  assert (Hpn : forall i, chain_prefix sat i []).
  { intros i k x Hx. destruct k; discriminate. }
  destruct (Z.eq_dec id UNUSED) as [->|Hun].
  { exists [], [], []. split; [apply Hnil, ssat_loop_unused; lia|].
    repeat split; auto; change (zlen (@nil Z)) with 0; cbn [app]; change (zlen (@nil Z)) with 0;
      try lia.
    right; right; right; left. exists UNUSED. split; [constructor|auto]. }
  cbn [ssat_loop]. change END_OF_CHAIN with EOC in *. change MAX_TABLE_DEPTH with 256.
  destruct (id =? EOC) eqn:E0.
  { exists [], [], []. split; [apply Hnil; reflexivity|].
    repeat split; auto; change (zlen (@nil Z)) with 0; cbn [app]; change (zlen (@nil Z)) with 0;
      try lia.
    right; right; right; left. exists id. split; [constructor|left; lia]. }
  destruct (256 <? depth) eqn:E1.
  { exists [], [], []. split; [apply Hnil; reflexivity|].
    repeat split; auto; change (zlen (@nil Z)) with 0; cbn [app]; change (zlen (@nil Z)) with 0; lia. }
  destruct (n <=? sidx) eqn:E2.
  { exists [], [], []. split; [apply Hnil; reflexivity|].
    repeat split; auto; change (zlen (@nil Z)) with 0; cbn [app]; change (zlen (@nil Z)) with 0; lia. }
  destruct (id =? UNUSED) eqn:E3; [lia|].
  destruct (sector_read_cases rd ss id t) as [(s & Hr & Hdl)|[Hr Hdl]].
  2: { exists [], [], [id]. erewrite ibind_step by exact Hr. cbn iota.
       cbn [app map]. split; [unfold iret; unfold sector_words; cbn [map concat app];
         change (zlen (@nil Z)) with 0; now rewrite Z.sub_0_r|].
       repeat split; auto; rewrite ?zlen_cons; change (zlen (@nil Z)) with 0; try lia.
       right; right; right; left. exists id. split; [constructor|].
       right; right. cbn [map]. now rewrite app_nil_r. }
  pose proof (delivered_len _ _ _ _ Hdl) as Hlen.
  erewrite ibind_step by exact Hr. cbn iota.
  destruct (Z.eq_dec K 0) as [->|HK0].
  { (* the table is full *)
    assert (Hz : ssat_sector_loop (Z.to_nat E) e s 0 (pre ++ zeros (0 * E)) (zlen pre)
                 = Ok (pre ++ zeros (0 * E), zlen pre, false)).
    { replace (Z.to_nat E) with (S (Z.to_nat (E - 1))) by lia. cbn [ssat_sector_loop].
      rewrite zlen_app, zlen_zeros by lia.
      destruct ((zlen pre <? 0) || (zlen pre + 0 * E <=? zlen pre)) eqn:E4; [reflexivity|lia]. }
    rewrite (ilift_step _ _ _ _ Hz). cbn beta iota. cbn [negb].
    exists [], [], [id]. cbn [app map]. split.
    { unfold iret, sector_words. cbn [map concat app]. reflexivity. }
    repeat split; auto; rewrite ?zlen_cons; change (zlen (@nil Z)) with 0; lia. }
  rewrite (ilift_step _ _ _ _
    (ssat_sector_loop_eq e s (Z.to_nat E) 0 pre (K * E) ltac:(lia) ltac:(lia) ltac:(nia))).
  cbn beta iota. cbn [negb].
  assert (Hw : values_from e s 0 (Z.to_nat E) = words e s) by (symmetry; apply words_all; auto).
  rewrite Hw. replace (K * E - Z.of_nat (Z.to_nat E)) with ((K - 1) * E) by nia.
  replace (zlen pre + Z.of_nat (Z.to_nat E)) with (zlen (pre ++ words e s))
    by (rewrite zlen_app, zlen_words, Hlen; fold E; lia).
  rewrite app_assoc. unfold is_u32 in Hid.
  pose proof (table_next_defined sat id ltac:(lia)) as Hdef.
  destruct (table_next sat id) as [id'| | |] eqn:En; try (exfalso; exact Hdef).
  - apply table_next_ok in En as [En _]; [|lia].
    assert (Hid' : is_u32 id') by (eapply Forall_znth; eauto).
    destruct (IHfuel (pre ++ words e s) (K - 1) id' n (sidx + 1) (depth + 1) (t ++ [request ss id]))
      as (ids & secs & extra & H1 & H2 & H3 & H3b & H4 & H5 & H6 & H7); [lia|auto|lia|lia|lia|].
    exists (id :: ids), (s :: secs), extra.
    split. { rewrite H1. unfold sector_words. cbn [map concat app]. rewrite <- !app_assoc. cbn [app].
             rewrite zlen_cons. do 5 f_equal. f_equal. lia. }
    split; [constructor; auto|].
    split. { intros k x Hx. destruct k; cbn [nth_error] in Hx.
             - injection Hx as <-. constructor.
             - eapply nth_sector_cons; eauto. }
    split. { constructor; auto. change FREE with UNUSED. lia. }
    cbn [app length]. rewrite !zlen_cons.
    split; [lia|]. split; [lia|]. split; [lia|].
    destruct H7 as [H7|[H7|[H7|[(x & Hx & H7)|H7]]]]; [left; lia|right; left; lia|right; right; left; lia|..].
    + right; right; right; left. exists x. split; [eapply nth_sector_cons; eauto|].
      cbn [map]. rewrite <- app_assoc in H7. exact H7.
    + right; right; right; right. intros x Hx. apply (H7 x).
      destruct (nth_sector_inv_cons _ _ _ _ Hx) as (y & Hy1 & Hy2). assert (Hy : y = id') by congruence.
      rewrite Hy in Hy2. exact Hy2.
  - exists [id], [s], []. cbn [app map length].
    split. { unfold iret, sector_words. cbn [map concat]. rewrite zlen_cons, app_nil_r.
             change (zlen (@nil Z)) with 0. rewrite <- app_assoc. reflexivity. }
    split; [constructor; auto|].
    split. { intros k x Hx. destruct k as [|[|k]]; cbn [nth_error] in Hx; try discriminate.
             injection Hx as <-. constructor. }
    split. { constructor; auto. change FREE with UNUSED. lia. }
    rewrite zlen_cons. change (zlen (@nil Z)) with 0. 
    split; [lia|]. split; [lia|]. split; [lia|].
    right; right; right; right. intros x Hx.
    destruct (nth_sector_inv_cons _ _ _ _ Hx) as (y & Hy1 & _).
    pose proof (znth_range _ _ _ Hy1) as Hry.
    destruct (table_next_in sat id) as (z & Hz & _); [lia|lia|congruence].
Qed.

(** Sectors that hold no entry (smaller than 4 bytes). *)
Lemma ssat_loop_small rd e ss sat ssat si n : Forall is_u32 sat ->
  forall fuel id sidx depth t,
    is_u32 id -> 0 <= depth <= 257 -> 258 <= Z.of_nat fuel + depth ->
    exists ids, ssat_loop fuel rd e ss 0 sat ssat si id n sidx depth t
                = (Ok ssat, t ++ map (request ss) ids) /\ zlen ids + depth <= 257.
Proof.
  intros Hsat. induction fuel; intros id sidx depth t Hid Hd Hf; [lia|].
  assert (Hnil : forall o, o = (Ok ssat, t) ->
     exists ids, o = (Ok ssat, t ++ map (request ss) ids) /\ zlen ids + depth <= 257).
  { intros o ->. exists []. cbn [map]. rewrite app_nil_r. split; auto.
    change (zlen (@nil Z)) with 0. lia. }
  cbn [ssat_loop]. change MAX_TABLE_DEPTH with 256.
  destruct (id =? END_OF_CHAIN) eqn:E0; [apply Hnil; reflexivity|].
  destruct (256 <? depth) eqn:E1; [apply Hnil; reflexivity|].
  destruct (n <=? sidx) eqn:E2; [apply Hnil; reflexivity|].
  destruct (id =? UNUSED) eqn:E3.
  { destruct (IHfuel id (sidx + 1) (depth + 1) t) as (ids & H1 & H2); [auto|lia|lia|].
    exists ids. split; auto. lia. }
  assert (Hone : forall o, o = (Ok ssat, t ++ [request ss id]) ->
     exists ids, o = (Ok ssat, t ++ map (request ss) ids) /\ zlen ids + depth <= 257).
  { intros o ->. exists [id]. split; auto. rewrite zlen_cons. change (zlen (@nil Z)) with 0. lia. }
  destruct (sector_read_cases rd ss id t) as [(s & Hr & Hdl)|[Hr Hdl]];
    erewrite ibind_step by exact Hr; cbn iota; [|apply Hone; reflexivity].
  change (Z.to_nat 0) with O. cbn [ssat_sector_loop].
  rewrite (ilift_step _ _ _ (ssat, si, true)) by reflexivity. cbn beta iota. cbn [negb].
  unfold is_u32 in Hid. pose proof (table_next_defined sat id ltac:(lia)) as Hdef.
  destruct (table_next sat id) as [id'| | |] eqn:En; try (exfalso; exact Hdef);
    [|apply Hone; reflexivity].
  apply table_next_ok in En as [En _]; [|lia].
  assert (Hid' : is_u32 id') by (eapply Forall_znth; eauto).
  destruct (IHfuel id' (sidx + 1) (depth + 1) (t ++ [request ss id])) as (ids & H1 & H2); [auto|lia|lia|].
  exists (id :: ids). rewrite H1. cbn [map]. rewrite <- app_assoc. split; auto.
  rewrite zlen_cons. lia.
Qed.

Lemma power_mod4 ss : power_of_two ss -> 4 <= ss -> ss mod 4 = 0.
Proof.
  intros Hp H. destruct (power_small ss Hp) as [?|(a & Ha & ->)]; [lia|].
  replace a with (a - 2 + 2) by lia. rewrite Z.pow_add_r by lia.
  change (2 ^ 2) with 4. apply Z_mod_mult.
Qed.

(** What reading the short sector table gives: [cap] sectors fit the table. *)
Definition ssat_outcome (rd : reader) (e : endian) (ss : Z) (sat : list Z) (first n cap : Z)
           (t : trace) (ssat : list Z) (t' : trace) : Prop :=
  exists ids secs extra,
    ssat = sector_words e secs ++ zeros ((cap - zlen ids) * (ss / 4)) /\
    t' = t ++ map (request ss) (ids ++ extra) /\
    Forall2 (delivered rd ss) ids secs /\ chain_prefix sat first ids /\
    Forall (fun x => x <> EOC /\ x <> FREE) ids /\
    zlen ids <= cap /\ zlen ids <= n /\ zlen (ids ++ extra) <= 257 /\
    (zlen ids = n \/ zlen ids = 257 \/ zlen ids = cap \/
     (exists x, nth_sector sat first (length ids) x /\
                (x = EOC \/ x = FREE \/ refused rd ss x (t ++ map (request ss) ids))) \/
     forall x, ~ nth_sector sat first (length ids) x).

Lemma read_ssat_outcome rd e ss sat first n t :
  power_of_two ss -> 4 <= ss -> Forall is_u32 sat -> zlen sat <= 33554432 ->
  is_u32 first -> 0 <= n ->
  exists ssat t', read_ssat rd e ss sat [] first n t = (Ok ssat, t') /\
    ssat_outcome rd e ss sat first n (table_sectors ss n) t ssat t'.
Proof.
  intros Hp Hss Hsat Hsz Hf Hn. pose proof (power_range ss Hp) as Hr. unfold read_ssat.
  destruct ((ss =? 0) || (MEMORY_MAXIMUM_ALLOCATION_SIZE <? ss)) eqn:E0.
  { change MEMORY_MAXIMUM_ALLOCATION_SIZE with 134217728 in E0. lia. }
  change (zlen (@nil Z)) with 0.
  assert (Hmain : 0 <= table_sectors ss n ->
    exists ssat t',
      ssat_loop 258 rd e ss (ss / 4) sat (zeros (table_sectors ss n * (ss / 4))) 0 first n 0 0 t
      = (Ok ssat, t') /\ ssat_outcome rd e ss sat first n (table_sectors ss n) t ssat t').
  { intros HK.
    destruct (ssat_loop_eq rd e ss sat Hss (power_mod4 _ Hp Hss) Hsat Hsz 258 [] (table_sectors ss n)
                first n 0 0 t) as (ids & secs & extra & H1 & H2 & H3 & H3b & H4 & H5 & H6 & H7);
      [lia|auto|lia|lia|lia|].
    change (zlen (@nil Z)) with 0 in H1. cbn [app] in H1.
    eexists; eexists. split; [exact H1|]. exists ids, secs, extra.
    split; auto. split; auto. split; auto. split; auto. split; auto. split; [lia|]. split; [lia|].
    split; [lia|]. destruct H7 as [H7|[H7|[H7|H7]]]; [left; lia|right; left; lia|right; right; left; lia|].
    right; right; right. exact H7. }
  destruct (table_made ss n Hp Hss) as [[H1 H2]|[[H1 H2]|[H1 H2]]].
  - destruct (0 <? s32 (n * (ss / 4))) eqn:E1; [|lia].
    unfold table_resize. change TABLE_MAX with 33554432.
    destruct ((s32 (n * (ss / 4)) <? 0) || (33554432 <? s32 (n * (ss / 4)))) eqn:E2; [|lia].
    exists [], t. split; [reflexivity|]. rewrite H2. exists [], [], [].
    cbn [map app]. change (zlen (@nil Z)) with 0.
    split; [reflexivity|]. split; [symmetry; apply app_nil_r|]. split; [constructor|].
    split; [intros k x Hx; destruct k; discriminate|]. split; [constructor|].
    split; [lia|]. split; [lia|]. split; [lia|]. right; right; left; lia.
  - destruct (0 <? s32 (n * (ss / 4))) eqn:E1; [lia|].
    rewrite H2 in Hmain. change (zeros (0 * (ss / 4))) with (@nil Z) in Hmain.
    rewrite H2. apply Hmain. lia.
  - destruct (0 <? s32 (n * (ss / 4))) eqn:E1; [|lia].
    unfold table_resize. change TABLE_MAX with 33554432.
    destruct ((s32 (n * (ss / 4)) <? 0) || (33554432 <? s32 (n * (ss / 4)))) eqn:E2; [lia|].
    change (zlen (@nil Z)) with 0. rewrite E1, Z.sub_0_r, H2. cbn [app].
    apply Hmain. apply (table_sectors_nonneg ss n Hss).
Qed.

Lemma read_ssat_small rd e ss sat first n t :
  power_of_two ss -> ss < 4 -> Forall is_u32 sat -> is_u32 first ->
  exists ids, read_ssat rd e ss sat [] first n t = (Ok [], t ++ map (request ss) ids) /\
    zlen ids <= 257.
Proof.
  intros Hp Hss Hsat Hf. pose proof (power_range ss Hp) as Hr. unfold read_ssat.
  destruct ((ss =? 0) || (MEMORY_MAXIMUM_ALLOCATION_SIZE <? ss)) eqn:E0.
  { change MEMORY_MAXIMUM_ALLOCATION_SIZE with 134217728 in E0. lia. }
  rewrite (Z.div_small ss 4) by lia. rewrite Z.mul_0_r. change (s32 0) with 0.
  change (zlen (@nil Z) <? 0) with false. cbn iota.
  destruct (ssat_loop_small rd e ss sat [] 0 n Hsat 258 first 0 0 t) as (ids & H1 & H2); [auto|lia|lia|].
  exists ids. split; auto. lia.
Qed.

(** * The directory *)
Lemma value_at_1 e l p b : arr_get l p = Ok b -> value_at e l p 1 = b.
Proof.
  unfold arr_get. destruct (znth l p) eqn:E; [|discriminate]. intros [= <-].
  pose proof (znth_range _ _ _ E). 
  unfold value_at, slice. replace (Z.to_nat 1) with 1%nat by reflexivity.
  unfold znth in E. destruct (p <? 0) eqn:Ep; [discriminate|].
  assert (Hf : firstn 1 (skipn (Z.to_nat p) l) = [z]).
  { revert E. generalize (Z.to_nat p). clear. intros n. revert n.
    induction l as [|a l IH]; intros [|n] H; cbn in *; try discriminate.
    - now injection H as ->.
    - auto. }
  rewrite Hf. destruct e; cbn; lia.
Qed.

Lemma dirent_read_eq e k slot :
  zlen slot = 128 -> 0 <= k < 4294967296 ->
  (value_at Little slot 66 1 = 0 /\ dirent_read e k slot = Ok None) \/
  (value_at Little slot 66 1 <> 0 /\ 128 < value_at e slot 64 2 /\ dirent_read e k slot = Err) \/
  (value_at Little slot 66 1 <> 0 /\ value_at e slot 64 2 <= 128 /\
   exists d, dirent_read e k slot = Ok (Some d) /\ fields_of d = slot_fields e k slot).
Proof.
  intros Hl Hk. unfold dirent_read. rewrite Hl. change (128 <? 128) with false. cbn iota.
  destruct (arr_get_in slot 66 ltac:(lia)) as (b & Hb).
  rewrite (value_at_1 Little _ _ _ Hb). rewrite Hb. cbn [rbind].
  change TYPE_EMPTY with 0. destruct (b =? 0) eqn:E0; [left; split; [lia|reflexivity]|].
  rewrite get_u16_value by lia. cbn [rbind].
  destruct (128 <? value_at e slot 64 2) eqn:E1; [right; left; repeat split; lia|].
  rewrite !get_u32_value, !get_u64_value by lia. cbn [rbind].
  right; right. split; [lia|]. split; [lia|]. eexists. split; [reflexivity|].
  unfold fields_of, slot_fields. cbn. rewrite (value_at_1 e _ _ _ Hb).
  f_equal. apply u32_id. unfold TWO32. lia.
Qed.

(** The entries of one sector whose first slot has the number [base]. *)
Definition sector_slots (e : endian) (base : Z) (s : list Z) (n : nat) : list entry_fields :=
  flat_map (fun k => if value_at Little (slot_of s k) 66 1 =? 0 then []
                     else [slot_fields e (base + Z.of_nat k) (slot_of s k)])
           (seq 0 n).

Lemma sector_slots_0 e s n : sector_slots e 0 s n = slots_entries e s n.
Proof. reflexivity. Qed.

Lemma flat_map_ext_in {A B} (f g : A -> list B) l :
  (forall x, In x l -> f x = g x) -> flat_map f l = flat_map g l.
Proof.
  induction l as [|a l IH]; intros H; cbn [flat_map]; auto.
  rewrite H by (left; reflexivity). f_equal. apply IH. intros x Hx. apply H. now right.
Qed.

Lemma flat_map_map {A B C} (f : B -> list C) (g : A -> B) l :
  flat_map f (map g l) = flat_map (fun x => f (g x)) l.
Proof. induction l; cbn; congruence. Qed.

Lemma slice_app_l {A} (a b : list A) p n : 0 <= p -> 0 <= n -> p + n <= zlen a -> slice (a ++ b) p n = slice a p n.
Proof.
  intros H1 H2 H3. unfold zlen in H3. unfold slice. rewrite skipn_app, firstn_app.
  rewrite skipn_length. replace (Z.to_nat n - (length a - Z.to_nat p))%nat with O by lia.
  rewrite firstn_O. apply app_nil_r.
Qed.

Lemma slice_app_r {A} (a b : list A) p n : 0 <= p -> slice (a ++ b) (zlen a + p) n = slice b p n.
Proof.
  intros H1. unfold slice, zlen. rewrite skipn_app.
  replace (Z.to_nat (Z.of_nat (length a) + p)) with (length a + Z.to_nat p)%nat by lia.
  rewrite skipn_all2 by lia. cbn [app]. do 2 f_equal. lia.
Qed.

Lemma slots_entries_app e B s n m :
  zlen B = 128 * Z.of_nat n ->
  slots_entries e (B ++ s) (n + m) = slots_entries e B n ++ sector_slots e (Z.of_nat n) s m.
Proof.
  intros HB. unfold slots_entries. rewrite seq_app, flat_map_app. f_equal.
  - apply flat_map_ext_in. intros k Hk. apply in_seq in Hk. unfold slot_of.
    rewrite slice_app_l by lia. reflexivity.
  - unfold sector_slots. cbn [plus].
    replace (seq n m) with (map (fun k => (n + k)%nat) (seq 0 m)).
    2: { clear. assert (H : forall k, map (fun k => (n + k)%nat) (seq k m) = seq (n + k) m).
         { induction m; intros k; cbn; auto. rewrite IHm. do 2 f_equal. lia. }
         rewrite H. f_equal. lia. }
    rewrite flat_map_map. apply flat_map_ext_in. intros k Hk. unfold slot_of.
    replace (128 * Z.of_nat (n + k)) with (zlen B + 128 * Z.of_nat k) by lia.
    rewrite slice_app_r by lia. rewrite Nat2Z.inj_add. reflexivity.
Qed.

Definition bad_slot (e : endian) (s : list Z) (n : nat) : Prop :=
  exists k, (k < n)%nat /\ value_at Little (slot_of s k) 66 1 <> 0 /\
            128 < value_at e (slot_of s k) 64 2.

Lemma dir_sector_loop_eq e s base N : zlen s = 128 * Z.of_nat N -> 0 <= base ->
  base + Z.of_nat N < 4294967296 ->
  forall n k acc, (k + n = N)%nat ->
  (bad_slot e s N /\ dir_sector_loop n e s (128 * Z.of_nat k) acc (base + Z.of_nat k) = Err) \/
  ((forall j, (k <= j < N)%nat -> value_at Little (slot_of s j) 66 1 <> 0 ->
              value_at e (slot_of s j) 64 2 <= 128) /\
   exists ds, dir_sector_loop n e s (128 * Z.of_nat k) acc (base + Z.of_nat k)
              = Ok (acc ++ ds, base + Z.of_nat N) /\
     map fields_of ds =
       flat_map (fun k => if value_at Little (slot_of s k) 66 1 =? 0 then []
                     else [slot_fields e (base + Z.of_nat k) (slot_of s k)])
           (seq k n)).
Proof.
  intros Hs Hb HN. induction n; intros k acc Hk.
  - right. split; [intros; lia|]. exists []. cbn. rewrite app_nil_r.
    split; [do 2 f_equal; lia|reflexivity].
  - cbn [dir_sector_loop].
    assert (Hlen : zlen (slice s (128 * Z.of_nat k) 128) = 128) by (rewrite zlen_slice; lia).
    change (slice s (128 * Z.of_nat k) 128) with (slot_of s k) in *.
    destruct (dirent_read_eq e (base + Z.of_nat k) (slot_of s k) Hlen) as
      [[H1 H2]|[(H1 & H2 & H3)|(H1 & H2 & d & H3 & H4)]]; [lia|..].
    + rewrite H2. cbn [rbind].
      replace (128 * Z.of_nat k + 128) with (128 * Z.of_nat (S k)) by lia.
      replace (base + Z.of_nat k + 1) with (base + Z.of_nat (S k)) by lia.
      destruct (IHn (S k) acc ltac:(lia)) as [IH|(IH1 & ds & IH2 & IH3)]; [left; exact IH|right].
      split. { intros j Hj Hv. destruct (Nat.eq_dec j k) as [->|]; [lia|apply IH1; [lia|auto]]. }
      exists ds. split; auto. cbn [seq flat_map]. rewrite H1. cbn [Z.eqb app]. exact IH3.
    + left. rewrite H3. cbn [rbind]. split; auto. exists k. split; [lia|auto].
    + rewrite H3. cbn [rbind].
      replace (128 * Z.of_nat k + 128) with (128 * Z.of_nat (S k)) by lia.
      replace (base + Z.of_nat k + 1) with (base + Z.of_nat (S k)) by lia.
      destruct (IHn (S k) (acc ++ [d]) ltac:(lia)) as [IH|(IH1 & ds & IH2 & IH3)]; [left; exact IH|right].
      split. { intros j Hj Hv. destruct (Nat.eq_dec j k) as [->|]; [lia|apply IH1; [lia|auto]]. }
      exists (d :: ds). split; [rewrite IH2, <- app_assoc; reflexivity|].
      cbn [seq flat_map map]. rewrite H4, IH3.
      destruct (value_at Little (slot_of s k) 66 1 =? 0) eqn:E; [lia|reflexivity].
Qed.

Lemma existsb_In id l : existsb (Z.eqb id) l = true <-> In id l.
Proof.
  rewrite existsb_exists. split.
  - intros (x & H1 & H2). assert (id = x) by lia. now subst.
  - intros H. exists id. split; auto. lia.
Qed.

Lemma dir_loop_eq rd e ss sat N : ss = 128 * Z.of_nat N -> (1 <= N <= 256)%nat ->
  Forall is_u32 sat -> zlen sat <= 33554432 ->
  forall fuel acc B m id visited depth t,
    zlen B = 128 * Z.of_nat m -> is_u32 id -> 0 <= depth <= 1025 ->
    Z.of_nat m <= depth * 256 ->
    1026 <= Z.of_nat fuel + depth ->
    map fields_of acc = slots_entries e B m ->
    exists ids secs,
      Forall2 (delivered rd ss) ids secs /\ chain_prefix sat id ids /\ NoDup ids /\
      (forall x, In x ids -> ~ In x visited /\ x <> EOC /\ x <> FREE) /\
      zlen ids + depth <= 1025 /\
      ((exists l last,
          dir_loop fuel rd e ss (Z.of_nat N) sat acc (Z.of_nat m) id visited depth t
          = (Ok l, t ++ map (request ss) ids) /\
          map fields_of l = slots_entries e (B ++ concat secs) (m + length ids * N) /\
          Forall (fun s => ~ bad_slot e s N) secs /\
          nth_sector sat id (length ids) last /\
          (last = EOC \/ last = FREE \/ ((In last visited \/ In last ids) /\ zlen ids + depth <= 1024))) \/
       (exists extra,
          dir_loop fuel rd e ss (Z.of_nat N) sat acc (Z.of_nat m) id visited depth t
          = (Err, t ++ map (request ss) (ids ++ extra)) /\ zlen (ids ++ extra) + depth <= 1025 /\
          (zlen ids + depth = 1025 \/
           (exists x, nth_sector sat id (length ids) x /\ refused rd ss x (t ++ map (request ss) ids)) \/
           (exists x s, nth_sector sat id (length ids) x /\ delivered rd ss x s /\ bad_slot e s N) \/
           (exists x s, nth_sector sat id (length ids) x /\ delivered rd ss x s /\
                        znth sat x = None)))).
Proof.
  intros Hss HN Hsat Hsz.
  induction fuel; intros acc B m id visited depth t HB Hid Hd Hm Hf Hacc; [lia|].
  cbn [dir_loop]. change END_OF_CHAIN with EOC. change UNUSED with FREE.
  change MAX_DIRECTORY_DEPTH with 1024.
  assert (Hpn : chain_prefix sat id []) by (intros k x Hx; destruct k; discriminate).
  assert (Hend : (id = EOC \/ id = FREE \/ (In id visited /\ depth <= 1024)) -> forall o, o = (Ok acc, t) ->
    exists ids secs,
      Forall2 (delivered rd ss) ids secs /\ chain_prefix sat id ids /\ NoDup ids /\
      (forall x, In x ids -> ~ In x visited /\ x <> EOC /\ x <> FREE) /\
      zlen ids + depth <= 1025 /\
      ((exists l last, o = (Ok l, t ++ map (request ss) ids) /\
          map fields_of l = slots_entries e (B ++ concat secs) (m + length ids * N) /\
          Forall (fun s => ~ bad_slot e s N) secs /\
          nth_sector sat id (length ids) last /\
          (last = EOC \/ last = FREE \/ ((In last visited \/ In last ids) /\ zlen ids + depth <= 1024))) \/
       (exists extra, o = (Err, t ++ map (request ss) (ids ++ extra)) /\
          zlen (ids ++ extra) + depth <= 1025 /\ 
          (zlen ids + depth = 1025 \/
           (exists x, nth_sector sat id (length ids) x /\ refused rd ss x (t ++ map (request ss) ids)) \/
           (exists x s, nth_sector sat id (length ids) x /\ delivered rd ss x s /\ bad_slot e s N) \/
           (exists x s, nth_sector sat id (length ids) x /\ delivered rd ss x s /\
                        znth sat x = None))))).
  { intros He o ->. exists [], []. split; [constructor|]. split; auto. split; [constructor|].
    split; [intros x []|]. change (zlen (@nil Z)) with 0. split; [lia|]. left. exists acc, id.
    cbn [map concat length mult]. rewrite app_nil_r, app_nil_r, Nat.add_0_r.
    split; auto. split; auto. split; [constructor|]. split; [constructor|].
    change (zlen (@nil Z)) with 0. rewrite Z.add_0_l. tauto. }
  destruct (id =? EOC) eqn:E0; [apply Hend; [left; lia|reflexivity]|].
  destruct (id =? FREE) eqn:E1; [apply Hend; [right; left; lia|reflexivity]|].
  cbn [orb].
  destruct (1024 <? depth) eqn:E2.
  { exists [], []. split; [constructor|]. split; auto. split; [constructor|].
    split; [intros x []|]. change (zlen (@nil Z)) with 0. split; [lia|]. right. exists [].
    cbn [map app]. rewrite app_nil_r. change (zlen (@nil Z)) with 0.
    split; [reflexivity|]. split; [lia|]. left. lia. }
  destruct (existsb (Z.eqb id) visited) eqn:E3.
  { apply Hend; [right; right; split; [now apply existsb_In|lia]|reflexivity]. }
  assert (Hnv : ~ In id visited) by (rewrite <- existsb_In; congruence).
  unfold read_exact.
  assert (Hone : forall o, o = (Err, t ++ [request ss id]) ->
      (refused rd ss id t \/ (exists s, delivered rd ss id s /\ bad_slot e s N) \/
       (exists s, delivered rd ss id s /\ znth sat id = None)) ->
    exists ids secs,
      Forall2 (delivered rd ss) ids secs /\ chain_prefix sat id ids /\ NoDup ids /\
      (forall x, In x ids -> ~ In x visited /\ x <> EOC /\ x <> FREE) /\
      zlen ids + depth <= 1025 /\
      ((exists l last, o = (Ok l, t ++ map (request ss) ids) /\
          map fields_of l = slots_entries e (B ++ concat secs) (m + length ids * N) /\
          Forall (fun s => ~ bad_slot e s N) secs /\
          nth_sector sat id (length ids) last /\
          (last = EOC \/ last = FREE \/ ((In last visited \/ In last ids) /\ zlen ids + depth <= 1024))) \/
       (exists extra, o = (Err, t ++ map (request ss) (ids ++ extra)) /\
          zlen (ids ++ extra) + depth <= 1025 /\ 
          (zlen ids + depth = 1025 \/
           (exists x, nth_sector sat id (length ids) x /\ refused rd ss x (t ++ map (request ss) ids)) \/
           (exists x s, nth_sector sat id (length ids) x /\ delivered rd ss x s /\ bad_slot e s N) \/
           (exists x s, nth_sector sat id (length ids) x /\ delivered rd ss x s /\
                        znth sat x = None))))).
  { intros o -> Hwhy. exists [], []. split; [constructor|]. split; auto. split; [constructor|].
    split; [intros x []|]. change (zlen (@nil Z)) with 0. split; [lia|]. right. exists [id].
    cbn [map app]. rewrite zlen_cons. change (zlen (@nil Z)) with 0.
    split; [reflexivity|]. split; [lia|]. right. cbn [length]. rewrite app_nil_r.
    destruct Hwhy as [H|[(s & H1 & H2)|(s & H1 & H2)]].
    - left. exists id. split; [constructor|auto].
    - right; left. exists id, s. split; [constructor|auto].
    - right; right. exists id, s. split; [constructor|auto]. }
  destruct (sector_read_cases rd ss id t) as [(s & Hr & Hdl)|[Hr Hdl]].
  2: { apply Hone; auto. unfold ibind. rewrite Hr. reflexivity. }
  assert (Hread : (dio r <- read_at rd (sector_offset id ss) ss;
                   match r with Some l => iret l | None => ierr end) t
                  = (Ok s, t ++ [request ss id])).
  { unfold ibind. rewrite Hr. reflexivity. }
  erewrite ibind_step by exact Hread.
  pose proof (delivered_len _ _ _ _ Hdl) as Hlen.
  rewrite Nat2Z.id.
  destruct (dir_sector_loop_eq e s (Z.of_nat m) N ltac:(lia) ltac:(lia) ltac:(lia) N 0%nat acc ltac:(lia))
    as [[Hbad Hbe]|(Hgood & ds & Hde & Hds)].
  { apply Hone; [|right; left; exists s; auto].
    unfold ibind at 1. unfold ilift at 1. change (128 * Z.of_nat 0) with 0 in Hbe.
    rewrite Z.add_0_r in Hbe. rewrite Hbe. reflexivity. }
  change (128 * Z.of_nat 0) with 0 in Hde. change (Z.of_nat 0) with 0 in Hde.
  rewrite Z.add_0_r in Hde.
  rewrite (ilift_step _ _ _ _ Hde). cbn beta iota.
  unfold is_u32 in Hid. pose proof (table_next_defined sat id ltac:(lia)) as Hdef.
  destruct (table_next sat id) as [id'| | |] eqn:En; try (exfalso; exact Hdef).
  - apply table_next_ok in En as [En _]; [|lia].
    rewrite (ilift_step _ _ _ id') by reflexivity.
    assert (Hid' : is_u32 id') by (eapply Forall_znth; eauto).
    rewrite <- Nat2Z.inj_add.
    destruct (IHfuel (acc ++ ds) (B ++ s) (m + N)%nat id' (id :: visited) (depth + 1)
                (t ++ [request ss id])) as (ids & secs & H1 & H2 & H3 & H4 & H5 & H6);
      [rewrite zlen_app; lia|auto|lia|lia|lia| |].
    { rewrite map_app, Hacc, Hds, slots_entries_app by auto. reflexivity. }
    exists (id :: ids), (s :: secs).
    split; [constructor; auto|].
    split. { intros k x Hx. destruct k; cbn [nth_error] in Hx.
             - injection Hx as <-. constructor.
             - eapply nth_sector_cons; eauto. }
    split. { constructor; auto. intros Hin. destruct (H4 _ Hin) as [H4' _]. apply H4'. now left. }
    split. { intros x [->|Hx]; [split; [auto|split; lia]|]. destruct (H4 _ Hx) as (Ha & Hb & Hc).
             split; auto. intros Hv. apply Ha. now right. }
    rewrite zlen_cons. split; [lia|].
    destruct H6 as [(l & last & H6 & H7 & H8 & H9 & H10)|(extra & H6 & H7 & H8)].
    + left. exists l, last. split; [rewrite H6; cbn [map]; rewrite <- app_assoc; reflexivity|].
      split. { rewrite H7. cbn [concat length mult]. rewrite <- app_assoc. f_equal. lia. }
      split. { constructor; auto. intros (k & Hk & Hk1 & Hk2). specialize (Hgood k ltac:(lia) Hk1). lia. }
      split; [cbn [length]; eapply nth_sector_cons; eauto|].

      destruct H10 as [H10|[H10|[[[<-|H10]|H10] H11]]]; auto; right; right; (split; [|lia]); auto.
      * right. now left.
      * right. now right.
    + right. exists extra. split; [rewrite H6; cbn [app map]; rewrite <- app_assoc; reflexivity|].
      cbn [app]. rewrite zlen_cons. split; [lia|]. cbn [length map].
      rewrite <- app_assoc in H8. cbn [app] in H8.
      destruct H8 as [H8|[(x & H8 & H9)|[(x & s' & H8 & H9)|(x & s' & H8 & H9)]]].
      * left; lia.
      * right; left. exists x. split; auto. eapply nth_sector_cons; eauto.
      * right; right; left. exists x, s'. split; auto. eapply nth_sector_cons; eauto.
      * right; right; right. exists x, s'. split; auto. eapply nth_sector_cons; eauto.
  - apply Hone; [reflexivity|]. right; right. exists s. split; auto.
    destruct (znth sat id) as [z|] eqn:Ez; auto. exfalso.
    pose proof (znth_range _ _ _ Ez).
    destruct (table_next_in sat id) as (z' & Hz & _); [lia|lia|congruence].
Qed.
