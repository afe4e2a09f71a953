(** The document of an opened file, computed, for concrete cases. *)
From Coq Require Import ZArith List Bool Lia.
From Verif Require Import Base Spec_IO M_Header M_Table M_Load M_Stream M_Tree M_Open M_Item
  Spec_Stream Spec_Load Spec_Tree Spec_Open Spec_Content L_Base L_Open2 L_Exact L_Session L_Export3 X_Content Spec_Write Spec_Stores
  L_Stores L_Stores2.
Import ListNotations.
Open Scope Z_scope.

Section Shown.
Variables (f : list Z) (v : volume) (t : tree).

Fixpoint shown_c (fuel : nat) (js : list nat) : option forest :=
  match fuel with
  | O => None
  | S fuel' =>
      match js with
      | [] => Some Empty
      | j :: js' =>
          match nth_error (tr_nodes t) j, shown_c fuel' js' with
          | Some nd, Some r =>
              let d := n_entry nd in
              if de_type d =? 2 then
                match n_subs nd, stream_bytes_c f v d with
                | [], Some s => if readable_c f v d then Some (AddStream (de_name d) (de_ctime d) (de_mtime d) s r) else None
                | _, _ => None
                end
              else if (de_type d =? 1) then
                match shown_c fuel' (n_subs nd) with
                | Some a => Some (AddStorage (de_name d) (de_ctime d) (de_mtime d) a r)
                | None => None
                end
              else None
          | _, _ => None
          end
      end
  end.

Hypothesis HF : Forall is_byte f.
Hypothesis HV : volume_ok v.
Hypothesis HD : forall k d, item_entry t k d -> dirent_ok d.

Lemma shown_c_ok fuel : forall js fo, shown_c fuel js = Some fo -> shows (file_reader f) v t js fo.
Proof.
  induction fuel as [|fuel IH]; intros js fo H; [discriminate H|]. cbn [shown_c] in H.
  destruct js as [|j js]; [injection H as <-; constructor|].
  destruct (nth_error (tr_nodes t) j) as [nd|] eqn:En; [|discriminate H].
  destruct (shown_c fuel js) as [r|] eqn:Er; [|discriminate H]. cbv zeta in H.
  destruct (de_type (n_entry nd) =? 2) eqn:E2.
  - apply Z.eqb_eq in E2. destruct (n_subs nd) as [|] eqn:Es; [|discriminate H].
    destruct (stream_bytes_c f v (n_entry nd)) as [s|] eqn:Eb; [|discriminate H].
    destruct (readable_c f v (n_entry nd)) eqn:Ec; [|discriminate H]. injection H as <-.
    econstructor; eauto. apply readable_c_ok; auto. apply (HD j). exists nd. auto.
  - destruct (de_type (n_entry nd) =? 1) eqn:E1; [|discriminate H]. apply Z.eqb_eq in E1.
    destruct (shown_c fuel (n_subs nd)) as [a|] eqn:Ea; [|discriminate H]. injection H as <-. econstructor; eauto.
Qed.
End Shown.

Definition document_c (fuel : nat) (f : list Z) (o : opened) : option document :=
  match o_tree o with
  | Some t =>
      match tr_nodes t with
      | nd :: _ =>
          match shown_c f (opened_volume o) t fuel (n_subs nd) with
          | Some x =>
              if (de_id (n_entry nd) =? 0) &&
                 forallb (fun x => negb (de_type (n_entry x) =? 1) || (de_size (n_entry x) =? 0)) (tr_nodes t)
              then Some {| doc_name := de_name (n_entry nd); doc_ctime := de_ctime (n_entry nd);
                           doc_mtime := de_mtime (n_entry nd); doc_items := x |}
              else None
          | None => None
          end
      | [] => None
      end
  | None => None
  end.

Lemma document_c_ok u fuel f o t doc : una_ok u -> Forall is_byte f -> open_read u (file_reader f) [] = (Ok o, t) ->
  moderate (o_header o) -> document_c fuel f o = Some doc -> exists root, stores u f (o_header o) root doc.
Proof.
  intros Hu HF HO HM H. pose proof (file_reader_bytes f HF) as HB. unfold document_c in H. destruct (o_tree o) as [tr|] eqn:Ht; [|discriminate H].
  destruct (tr_nodes tr) as [|nd nds] eqn:En; [discriminate H|].
  destruct (shown_c f (opened_volume o) tr fuel (n_subs nd)) as [x|] eqn:Es; [|discriminate H].
  destruct (_ && _) eqn:Ec; [|discriminate H]. apply andb_true_iff in Ec as (E0 & Ec). apply Z.eqb_eq in E0. injection H as <-.
  exists (n_entry nd). apply shows_stored with (rd := file_reader f) (t := t) (tr := tr); auto.
  - apply file_reader_sound.
  - apply file_reader_total.
  - now rewrite En.
  - intros k y Hk Hy. rewrite En in Hk. apply nth_error_In in Hk. rewrite forallb_forall in Ec. apply Ec in Hk.
    apply orb_true_iff in Hk as [Hk|Hk]; [apply negb_true_iff, Z.eqb_neq in Hk; congruence|now apply Z.eqb_eq].
  - apply shown_c_ok with (fuel := fuel); auto.
    + exact (opened_volume_ok u _ Hu HB o t HO).
    + intros k d Hd. eapply opened_item_ok; eauto.
Qed.
