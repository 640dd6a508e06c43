(** The read loop terminates exactly when there are enough items. *)
From Coq Require Import List NArith ZArith Bool Lia.
From Verif Require Import Py.Str Py.Res Py.Num Model.Dict Model.TextParser Model.ReadLoop
  Spec.TextSpec Proofs.StrLemmas Proofs.TextLemmas.
Import ListNotations.

Lemma after_eof k n s : l_file s = [] -> running n s = true -> running n (after k n s) = true.
Proof.
  revert s. induction k as [|k IH]; intros s Hf Hr; auto. cbn [after]. rewrite Hr.
  apply IH; unfold loop_body; rewrite Hf; cbn; auto.
  replace (slice_to [] n) with (@nil str); [rewrite app_nil_r; exact Hr|].
  unfold slice_to. symmetry. apply firstn_nil.
Qed.

Lemma loop_total n ls rt :
  (exists k, running n (after k n (mkL rt ls)) = false)
  <-> (n <= Z.of_nat (length rt + length (concat (map toks ls))))%Z.
Proof.
  revert rt. induction ls as [|l ls IH]; intros rt.
  - simpl. rewrite Nat.add_0_r. split.
    + intros [k Hk]. destruct (running n (mkL rt [])) eqn:E.
      * rewrite after_eof in Hk; auto; discriminate.
      * unfold running in E. simpl in E. lia.
    + intros Hn. exists O. unfold running. simpl. lia.
  - simpl concat. rewrite app_length.
    destruct (running n (mkL rt (l :: ls))) eqn:E.
    + assert (B : loop_body n (mkL rt (l :: ls)) = mkL (rt ++ slice_to (toks l) n) ls).
      { unfold loop_body. simpl. now rewrite unknown_items. }
      assert (K : (exists k, running n (after k n (mkL rt (l :: ls))) = false) <->
                  (exists k, running n (after k n (mkL (rt ++ slice_to (toks l) n) ls)) = false)).
      { split; intros [k Hk].
        - destruct k as [|k]; [simpl in Hk; congruence|]. cbn [after] in Hk.
          rewrite E, B in Hk. eauto.
        - exists (S k). cbn [after]. now rewrite E, B. }
      rewrite K, IH, app_length. unfold running in E. simpl in E. apply Z.ltb_lt in E.
      destruct (Z.leb_spec (Z.of_nat (length (toks l))) n).
      * rewrite slice_to_ge by auto. lia.
      * assert (Z.of_nat (length (slice_to (toks l) n)) = n).
        { unfold slice_to. destruct (Z.ltb_spec n 0); [lia|]. rewrite firstn_length. lia. }
        lia.
    + split; [|intros _; exists O; exact E]. unfold running in E. simpl in E. lia.
Qed.

Lemma hang_iff_diverges {num} `{NumOps num} n ls t :
  readItemsFromUnknownLines (num:=num) EHang ls n t = Err EHang
  <-> (forall k, running n (after k n (mkL [] ls)) = true).
Proof.
  rewrite readUnknown_eof_iff. pose proof (loop_total n ls []) as K. simpl in K.
  split.
  - intros Hn k. destruct (running n (after k n (mkL [] ls))) eqn:E; auto.
    assert ((n <= Z.of_nat (length (concat (map toks ls))))%Z) by (apply K; eauto). lia.
  - intros Hk. destruct (Z.ltb_spec (Z.of_nat (length (concat (map toks ls)))) n); auto.
    destruct K as [_ K]. destruct K as [k Ek]; [lia|]. rewrite Hk in Ek. discriminate.
Qed.
