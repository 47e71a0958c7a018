(** Property theorems about the step-wise table compressor. *)
From Verif Require Import Base M_bits M_dynamic M_incrzip S_incrzip S_incrstep M_incrstep L_incrzip L_incrstep.

(** C09 for histories where no call brings several records to a (key, table) pair without a
    previous record, and no 8-byte word moves by 2^63.  For every history of calls of
    compress_step and compress_restart, every initial content of the decoder's scratch
    record: if the encoder stays inside its buffer, the decoder accepts all packets and
    delivers exactly the accepted records, in order. *)
Theorem C09_stepwise_roundtrip_partial : forall c catch ops e fl, cfg_ok c ->
  (forall s t, nth_error (ztables c) s = Some t -> (tsize t <= length catch)%nat) ->
  enc_run c (enc_start c) ops = Some (e, fl) ->
  hist_ok (cfg_cols c) (cfg_size c) (fun _ _ => None) (accepted ops fl) ->
  exists d, dec_run c (dec_start c catch) (enc_stop e) = Some d
    /\ Forall2 (same_item (cfg_cols c)) (delivered (accepted ops fl)) (d_out d).
Proof. exact stepwise_roundtrip_lemma. Qed.
Print Assumptions C09_stepwise_roundtrip_partial.

Definition ex_cfg : zcfg :=
  mkzcfg 2 [mktable 2 [mkfield ty_uint 2 1 0]; mktable 1 [mkfield ty_int 1 1 0]] (64 * 256).

(** two keys, two tables, a restart without and one with reset, a rejected call *)
Definition ex_ops : list zop :=
  [ZStep 0 0 [[5;1]]; ZStep 1 1 [[200]]; ZStep 0 0 [[7;1];[9;0]]; ZStep 2 0 [[1;1]]; ZRestart false;
   ZStep 1 1 [[3];[4]]; ZRestart true; ZStep 0 0 [[8;8]]].

Example C09_example :
  match enc_run ex_cfg (enc_start ex_cfg) ex_ops with
  | Some (e, fl) =>
    fl = [true; true; true; false; true; true; true; true]
    /\ length (enc_stop e) = 3%nat
    /\ match dec_run ex_cfg (dec_start ex_cfg [99;98]) (enc_stop e) with
       | Some d => d_out d = delivered (accepted ex_ops fl)
       | None => False end
  | None => False end.
Proof. vm_compute. repeat split; reflexivity. Qed.

Example C09_example_hyps : cfg_ok ex_cfg
  /\ hist_ok (cfg_cols ex_cfg) (cfg_size ex_cfg) (fun _ _ => None)
       (accepted ex_ops [true; true; true; false; true; true; true; true]).
Proof.
  split.
  - unfold cfg_ok. split; [repeat constructor; cbn; try lia; discriminate|].
    split; [vm_compute; reflexivity|]. split; vm_compute; reflexivity.
  - cbn -[Z.pow]. unfold step_ok, cfg_cols, cfg_size; cbn -[Z.pow].
    repeat match goal with
    | |- _ /\ _ => split
    | |- Forall _ _ => constructor
    | |- is_byte _ => unfold is_byte; lia
    | |- True => exact I
    | |- forall c i, _ -> _ => intros ? ? [<-|[]]; cbn; discriminate
    | |- _ -> (_ <= _)%nat => intros; try discriminate; lia
    | |- _ = _ => reflexivity
    end.
Qed.

(** Two records in the first call for a (key, table) pair: the decoder does not chain the
    differences, and the second record 7 comes back as 2. *)
Theorem C09_stepwise_roundtrip_refuted : exists c catch ops e fl d, cfg_ok c
  /\ (forall s t, nth_error (ztables c) s = Some t -> (tsize t <= length catch)%nat)
  /\ ops = [ZStep 0 0 [[5]; [7]]]
  /\ enc_run c (enc_start c) ops = Some (e, fl) /\ fl = [true]
  /\ dec_run c (dec_start c catch) (enc_stop e) = Some d
  /\ ~ Forall2 (same_item (cfg_cols c)) (delivered (accepted ops fl)) (d_out d).
Proof.
  set (c := mkzcfg 1 [mktable 1 [mkfield ty_uint 1 1 0]] (64 * 256)).
  destruct (enc_run c (enc_start c) [ZStep 0 0 [[5]; [7]]]) as [[e fl]|] eqn:E; [|vm_compute in E; discriminate].
  destruct (dec_run c (dec_start c [0]) (enc_stop e)) as [d|] eqn:D.
  - exists c, [0], [ZStep 0 0 [[5]; [7]]], e, fl, d.
    assert (F : fl = [true] /\ d_out d = [(0%nat, 0%nat, [5]); (0%nat, 0%nat, [2])]).
    { assert (X : match enc_run c (enc_start c) [ZStep 0 0 [[5]; [7]]] with
               | Some (e, fl) => match dec_run c (dec_start c [0]) (enc_stop e) with
                                 | Some d => (fl, d_out d) | None => ([], []) end
               | None => ([], []) end = ([true], [(0%nat, 0%nat, [5]); (0%nat, 0%nat, [2])]))
        by (vm_compute; reflexivity).
      rewrite E, D in X. injection X as -> ->. auto. }
    destruct F as [-> F].
    split; [|split; [|split; [|split; [|split; [|split]]]]]; auto.
    + unfold cfg_ok. split; [repeat constructor; cbn; try lia; discriminate|].
      split; [vm_compute; reflexivity|]. split; vm_compute; reflexivity.
    + intros s t H. cbn in H. destruct s as [|[|s]]; cbn in H; [|discriminate|discriminate].
      injection H as <-. cbn. lia.
    + rewrite F. cbn. intros H. inversion H as [|? ? ? ? _ H2]; subst. inversion H2 as [|? ? ? ? [_ [_ H3]] _]; subst.
      cbn in H3. specialize (H3 0%nat). cbn in H3.
      assert (X : Some 7 = Some 2); [|discriminate].
      apply H3. exists (mkcol 0 1 1). split; [left; reflexivity|]. unfold in_column; cbn. lia.
  - exfalso. assert (X : match enc_run c (enc_start c) [ZStep 0 0 [[5]; [7]]] with
               | Some (e, fl) => match dec_run c (dec_start c [0]) (enc_stop e) with
                                 | Some d => true | None => false end
               | None => false end = true) by (vm_compute; reflexivity).
    rewrite E, D in X. discriminate.
Qed.
Print Assumptions C09_stepwise_roundtrip_refuted.
