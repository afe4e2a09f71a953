(** UTF-16 written out, as an instance of the functions of libuna that the mount
    tool uses on Windows. *)
From Coq Require Import ZArith List Bool Lia.
From Verif Require Import Base M_Load M_Tree M_Item M_Mount Spec_Tree Spec_Item Spec_Mount L_Mount X_Mount.
Import ListNotations.
Open Scope Z_scope.

Definition utf16_encode (c : Z) : res (list Z) :=
  if c <? 0 then Err
  else if c <? 55296 then Ok [c]
  else if c <? 57344 then Err
  else if c <? 65536 then Ok [c]
  else if c <? 1114112 then Ok [55296 + (c - 65536) / 1024; 56320 + (c - 65536) mod 1024]
  else Err.

Definition utf16_decode (s : list Z) (i : Z) : res (Z * Z) :=
  match znth s i with
  | None => Err
  | Some b =>
      if (b <? 0) || (65536 <=? b) then Err
      else if (55296 <=? b) && (b <? 56320) then
        match znth s (i + 1) with
        | None => Err
        | Some b1 =>
            if (56320 <=? b1) && (b1 <? 57344)
            then Ok ((b - 55296) * 1024 + (b1 - 56320) + 65536, i + 2) else Err
        end
      else Ok (b, i + 1)
  end.

Definition utf16 : codec := {| cd_decode := utf16_decode; cd_encode := utf16_encode |}.

Lemma znth_in {A} (s : list A) i x : znth s i = Some x -> i < zlen s.
Proof.
  unfold znth. destruct (i <? 0) eqn:E0; [discriminate|]. apply Z.ltb_ge in E0. intros H.
  assert (Z.to_nat i < length s)%nat by (apply nth_error_Some; congruence). unfold zlen. lia.
Qed.

Lemma utf16_cases s i : utf16_decode s i = Err \/
  exists c i', utf16_decode s i = Ok (c, i') /\ i < i' <= zlen s /\ 0 <= c < 1114112.
Proof.
  unfold utf16_decode. destruct (znth s i) as [b|] eqn:En; [|auto]. apply znth_in in En.
  destruct ((b <? 0) || (65536 <=? b)) eqn:E0; [auto|]. apply orb_false_elim in E0 as [E0 E1]. ltb. apply Z.leb_gt in E1.
  destruct ((55296 <=? b) && (b <? 56320)) eqn:E2; [|right; do 2 eexists; split; [reflexivity|lia]].
  apply andb_prop in E2 as [E2 E3]. ltb. apply Z.leb_le in E2.
  destruct (znth s (i + 1)) as [b1|] eqn:En1; [|auto]. apply znth_in in En1.
  destruct ((56320 <=? b1) && (b1 <? 57344)) eqn:E4; [|auto]. apply andb_prop in E4 as [E4 E5]. ltb. apply Z.leb_le in E4.
  right; do 2 eexists; split; [reflexivity|lia].
Qed.

Lemma utf16_is_char c units : utf16_encode c = Ok units -> is_char utf16_decode units c.
Proof.
  unfold utf16_encode. intros H. destruct (c <? 0) eqn:E0; [discriminate|].
  assert (HB : forall x, 0 <= x < 55296 \/ 57344 <= x < 65536 -> is_char utf16_decode [x] x).
  { intros x Hx. split; [discriminate|]. intros pre post. unfold utf16_decode. cbn [app]. rewrite first_at. cbv beta iota.
    replace (x <? 0) with false by (symmetry; apply Z.ltb_ge; lia).
    replace (65536 <=? x) with false by (symmetry; apply Z.leb_gt; lia). cbn [orb].
    destruct (55296 <=? x) eqn:A; [apply Z.leb_le in A|reflexivity].
    replace (x <? 56320) with false by (symmetry; apply Z.ltb_ge; lia). reflexivity. }
  destruct (c <? 55296) eqn:E1; ltb; [apply ok_inj in H; subst units; apply HB; lia|].
  destruct (c <? 57344) eqn:E2; [discriminate|]. destruct (c <? 65536) eqn:E3; ltb; [apply ok_inj in H; subst units; apply HB; lia|].
  destruct (c <? 1114112) eqn:E4; ltb; [|discriminate]. apply ok_inj in H; subst units.
  pose proof (Z.div_mod (c - 65536) 1024 ltac:(lia)) as D. pose proof (Z.mod_pos_bound (c - 65536) 1024 ltac:(lia)) as M.
  assert (0 <= (c - 65536) / 1024) by (apply Z.div_pos; lia). assert ((c - 65536) / 1024 < 1024) by (apply Z.div_lt_upper_bound; lia).
  set (q := (c - 65536) / 1024) in *. set (r := (c - 65536) mod 1024) in *.
  split; [discriminate|]. intros pre post. unfold utf16_decode. cbn [app]. rewrite first_at. cbv beta iota.
  replace (55296 + q <? 0) with false by (symmetry; apply Z.ltb_ge; lia).
  replace (65536 <=? 55296 + q) with false by (symmetry; apply Z.leb_gt; lia).
  replace (55296 <=? 55296 + q) with true by (symmetry; apply Z.leb_le; lia).
  replace (55296 + q <? 56320) with true by (symmetry; apply Z.ltb_lt; lia). cbn [orb andb].
  rewrite znth_at by lia. change (Z.to_nat 1) with 1%nat. cbn [nth_error].
  replace (56320 <=? 56320 + r) with true by (symmetry; apply Z.leb_le; lia).
  replace (56320 + r <? 57344) with true by (symmetry; apply Z.ltb_lt; lia). cbn [andb].
  apply ok_pair; [lia|reflexivity].
Qed.

Lemma utf16_ok : codec_ok utf16.
Proof.
  constructor; cbn [cd_decode cd_encode utf16].
  - intros s i Hi. destruct (utf16_cases s i) as [H|(c & i' & H & Hi' & _)]; [auto|right; eauto].
  - intros s i c i' H. destruct (utf16_cases s i) as [H'|(c' & i'' & H' & _ & Hc)]; rewrite H' in H; [discriminate|].
    injection H as <- <-. lia.
  - intros c. unfold utf16_encode.
    destruct (c <? 0); [exact I|]. destruct (c <? 55296); [exact I|]. destruct (c <? 57344); [exact I|].
    destruct (c <? 65536); [exact I|]. destruct (c <? 1114112); exact I.
  - exact utf16_is_char.
  - intros c Hc. unfold utf16_encode. replace (c <? 0) with false by (symmetry; apply Z.ltb_ge; lia).
    replace (c <? 55296) with true by (symmetry; apply Z.ltb_lt; lia). reflexivity.
  - intros c units H Hc. unfold utf16_encode in H. destruct (c <? 0); [discriminate|].
    assert (HS : units = [c] -> Forall (fun b => 128 <= b) units) by (intros ->; repeat constructor; lia).
    destruct (c <? 55296); [apply HS; congruence|]. destruct (c <? 57344); [discriminate|].
    destruct (c <? 65536) eqn:E3; [apply HS; congruence|]. ltb. destruct (c <? 1114112); [|discriminate]. apply ok_inj in H; subst units.
    pose proof (Z.mod_pos_bound (c - 65536) 1024 ltac:(lia)). assert (0 <= (c - 65536) / 1024) by (apply Z.div_pos; lia).
    repeat constructor; lia.
  - intros c units H. unfold utf16_encode in H. destruct (c <? 0); [discriminate|].
    destruct (c <? 55296) eqn:E1; [injection H as <-; cbn; lia|].
    destruct (c <? 57344) eqn:E2; [discriminate|].
    destruct (c <? 65536) eqn:E3; [injection H as <-; cbn; lia|]. ltb.
    destruct (c <? 1114112) eqn:E4; [|discriminate]. apply ok_inj in H; subst units. unfold zlen. cbn [length]. lia.
Qed.
