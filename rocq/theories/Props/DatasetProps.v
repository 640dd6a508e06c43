(** C127: the variables of a data set that are converted. *)
From Coq Require Import List NArith Bool.
From Verif Require Import Py.Str Model.DatasetVars Proofs.StrLemmas.
Import ListNotations.

(** The names in a data set are different, and a coordinate that is called like a
    dimension has just this dimension. *)
Definition dset_ok (ds : dset) : Prop :=
  NoDup (map e_name (ds_data ds ++ ds_coords ds)) /\
  forall c v, In c (ds_coords ds) -> In v (ds_data ds ++ ds_coords ds) -> In (e_name c) (e_dims v) -> e_dims c = [e_name c].
(** All dimensions of [c] are dimensions of [v]. *)
Definition within (c v : entry) : Prop := forall d, In d (e_dims c) -> In d (e_dims v).

Lemma str_in_iff s l : str_in s l = true <-> In s l.
Proof.
  unfold str_in. rewrite existsb_exists. split; [intros (x & I & E); apply str_eqb_eq in E; congruence | intros I; exists s; split; [exact I | apply str_eqb_eq; reflexivity]].
Qed.
Lemma aux_iff ds n : In n (aux_coords ds) <-> exists v c, In v (ds_data ds) /\ In c (ds_coords ds) /\ e_name c = n /\ within c v /\ ~ In n (e_dims v).
Proof.
  unfold aux_coords. rewrite in_flat_map. split.
  - intros (v & Iv & I). apply filter_In in I as (I & D). apply in_map_iff in I as (c & En & I). apply filter_In in I as (Ic & W). exists v, c. repeat (split; [assumption |]). split.
    + intros d Id. rewrite forallb_forall in W. apply str_in_iff, W, Id.
    + intros J. apply str_in_iff in J. rewrite J in D. discriminate D.
  - intros (v & c & Iv & Ic & En & W & N). exists v. split; [exact Iv |]. apply filter_In. split.
    + apply in_map_iff. exists c. split; [exact En |]. apply filter_In. split; [exact Ic |]. apply forallb_forall. intros d Id. apply str_in_iff, W, Id.
    + destruct (str_in n (e_dims v)) eqn:S; [| reflexivity]. apply str_in_iff in S. contradiction.
Qed.
(** Every data variable is converted, in the order of the data set, and every
    coordinate that is not called like a dimension if all its dimensions belong to
    some data variable; nothing else, and nothing twice. *)
Theorem C127_chosen_partial : forall ds order, dset_ok ds -> set_order (aux_coords ds) order ->
  exists l, chosen ds order = map e_name (ds_data ds) ++ l /\ NoDup (chosen ds order) /\
    forall n, In n l <-> exists c, In c (ds_coords ds) /\ e_name c = n /\ ~ In n (e_dims c) /\ exists v, In v (ds_data ds) /\ within c v.
Proof.
  intros ds order (Nd & Dc) (No & Io). unfold chosen. exists (filter (fun k => negb (str_in k (map e_name (ds_data ds)))) order). split; [reflexivity |].
  rewrite map_app in Nd.
  assert (Dis : forall n, In n (map e_name (ds_coords ds)) -> ~ In n (map e_name (ds_data ds))).
  { intros n Ic Id. clear - Nd Ic Id. induction (map e_name (ds_data ds)) as [| a l IH]; [exact Id |]. cbn in Nd. inversion Nd as [| ? ? Na Nl]; subst.
    destruct Id as [-> | Id]; [apply Na, in_or_app; right; exact Ic | exact (IH Nl Id)]. }
  assert (El : forall n, In n (filter (fun k => negb (str_in k (map e_name (ds_data ds)))) order) <-> In n (aux_coords ds)).
  { intros n. rewrite filter_In, Io. split; [intros (I & _); exact I | intros I; split; [exact I |]].
    apply aux_iff in I as (v & c & _ & Ic & <- & _). destruct (str_in (e_name c) (map e_name (ds_data ds))) eqn:S; [| reflexivity]. apply str_in_iff in S. exfalso. exact (Dis _ (in_map e_name _ _ Ic) S). }
  split.
  - assert (N1 : NoDup (map e_name (ds_data ds))) by (clear - Nd; induction (map e_name (ds_data ds)) as [| a l IH]; [constructor |]; cbn in Nd; inversion Nd as [| ? ? Na Nl]; subst; constructor; [intros J; apply Na, in_or_app; left; exact J | exact (IH Nl)]).
    assert (N2 : NoDup (filter (fun k => negb (str_in k (map e_name (ds_data ds)))) order)) by (apply NoDup_filter; exact No).
    assert (D2 : forall n, In n (filter (fun k => negb (str_in k (map e_name (ds_data ds)))) order) -> ~ In n (map e_name (ds_data ds))).
    { intros n I J. apply filter_In in I as (_ & I). apply str_in_iff in J. rewrite J in I. discriminate I. }
    revert N1 D2. generalize (map e_name (ds_data ds)) at 1 3 4. intros l N1 D2. induction N1 as [| a l Na N1 IH]; [exact N2 |]. cbn. constructor.
    + intros I. apply in_app_or in I as [I | I]; [contradiction |]. apply (D2 a I). left. reflexivity.
    + apply IH. intros n I J. apply (D2 n I). right. exact J.
  - intros n. rewrite El, aux_iff. split.
    + intros (v & c & Iv & Ic & En & W & N). exists c. split; [exact Ic |]. split; [exact En |]. split; [| exists v; split; assumption]. intros J. apply N, W, J.
    + intros (c & Ic & En & N & v & Iv & W). exists v, c. split; [exact Iv |]. split; [exact Ic |]. split; [exact En |]. split; [exact W |]. intros J.
      subst n. apply N. rewrite (Dc c v Ic (in_or_app _ _ _ (or_introl Iv)) J). left. reflexivity.
Qed.
(** A coordinate with dimensions that no data variable has together is left out. *)
Definition en (n : str) (d : list str) : entry := mkEntry n d.
Definition stations : dset := mkDset [en (lit "t") [lit "time"; lit "x"]] [en (lit "x") [lit "x"]; en (lit "time") [lit "time"]; en (lit "height") []; en (lit "lat") [lit "y"; lit "x"]].
Theorem C127_refuted : exists ds c, dset_ok ds /\ In c (ds_coords ds) /\ ~ In (e_name c) (flat_map e_dims (ds_data ds ++ ds_coords ds)) /\
  forall order, set_order (aux_coords ds) order -> ~ In (e_name c) (chosen ds order).
Proof.
  exists stations, (en (lit "lat") [lit "y"; lit "x"]). split; [| split; [cbn; tauto |]; split].
  - split.
    + vm_compute. repeat constructor; cbn; intuition discriminate.
    + vm_compute. intros c v Ic Iv I. repeat (destruct Ic as [<- | Ic]; [vm_compute in I |- *; try reflexivity; repeat (destruct Iv as [<- | Iv]; [cbn in I; intuition discriminate |]); destruct Iv |]). destruct Ic.
  - vm_compute. intuition discriminate.
  - intros order (_ & Io) I. unfold chosen in I. apply in_app_or in I as [I | I]; [vm_compute in I; intuition discriminate |].
    apply filter_In in I as (I & _). apply Io in I. vm_compute in I. intuition discriminate.
Qed.
Example C127_example : set_order (aux_coords stations) [lit "height"] /\ chosen stations [lit "height"] = map lit ["t"; "height"]%pylit.
Proof.
  split; [| reflexivity]. split; [repeat constructor; intros [] |]. intros x. vm_compute. tauto.
Qed.
Print Assumptions C127_chosen_partial.
Print Assumptions C127_refuted.
