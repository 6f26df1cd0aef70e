(** dumps() of the compiled library. *)
From Verif Require Import Base BaseFacts Spec Ptr PtrFacts Segment SegmentFacts Builder Copy Endof Struct List Message
  Enc EncFacts Query ObjFacts EndofTotal DumpFacts CRead CReadSpec CReadFacts BuilderC BuilderSim BuilderOps BuilderCFacts CLoad CEndofFacts.
From Coq Require Import ZifyBool.
Ltac Zify.zify_post_hook ::= Z.div_mod_to_equations.

Section dump.
  Variables (junk : nat -> byte) (fuel : nat) (o : obj) (d : bytes) (vs : list value).
  Hypothesis O : obj_den o d vs.
  Hypothesis A : aligned o.
  Hypothesis L : limv (VStruct d vs).
  Hypothesis Hlen : 16 + blen (content (VStruct d vs)) <= 2 ^ 32.
  Hypothesis Hf : (2 * vdepth (VStruct d vs) <= fuel)%nat.

  Lemma den_long : 0 <= o_off o <= blen (sbuf (o_seg o)) /\ 0 <= o_ds o < 2 ^ 16 /\ 0 <= o_ps o < 2 ^ 15.
  Proof.
    destruct (obj_sizes _ _ _ O) as [S1 S2]. pose proof O as (E & Hd & Hp & B & D).
    pose proof (bytes_at_some _ _ _ _ B) as (B1 & B2 & B3 & _). pose proof (proj1 (vall_struct _ _ _) L) as (L1 & _). cbn [lim1] in L1. unfold slen in *. lia.
  Qed.

  Lemma c_as_pointer_eq : c_as_pointer o 0 = as_pointer o 0.
  Proof.
    destruct den_long as (D1 & D2 & D3). destruct A as (A1 & A2 & A3). unfold slen in *.
    unfold c_as_pointer, as_pointer. rewrite (c_add_small (o_off o)) by lia. rewrite c_add_small by lia.
    replace ((o_off o + - 0 + -8) / 8) with ((o_off o - 0 - 8) / 8) by (f_equal; lia).
    rewrite C_new_struct_signed. apply wrap64_small. rewrite new_struct_spec by lia. unfold w_struct. lia.
  Qed.

  Lemma c_dumps_slow : c_dumps junk fuel o false = dumps fuel o false.
  Proof.
    rewrite (dumps_slow o d vs fuel O A L Hlen Hf).
    assert (PD := dumps_slow o d vs fuel O A L Hlen Hf). unfold dumps in PD. cbn [bind] in PD.
    change (negb (-1 =? -1)) with false in PD. cbv iota in PD. unfold allocate in PD. cbn [app] in PD.
    unfold c_dumps. cbn [bind]. change (negb (-1 =? -1)) with false. cbv iota.
    destruct (step_agree fuel junk 0 (OAllocate 16) 16 [] (c_init 512)) as (b1 & x1 & st1 & P1 & C1 & R1 & L1);
      [apply (fit_allocate fuel 0); lia|reflexivity|apply Rc_init; lia|].
    cbn [py_step c_step] in P1, C1. apply CReadFacts.ok_inj in C1, P1. rewrite C1.
    assert (b1 = zeros 16) as -> by (apply (f_equal fst) in P1; symmetry; exact P1).
    assert (exists st2, c_copy_pointer junk fuel (o_seg o) (c_as_pointer o 0) 0 st1 8 = Ok st2 /\
      exists b2, copy_from_struct fuel (zeros 16) 8 (Some o) = Ok b2 /\ Rc b2 st2 /\ 16 <= blen b2 <= 2 ^ 32) as (st2 & C2 & b2 & P2 & R2 & L2).
    { rewrite c_as_pointer_eq. pose proof (copy_from_struct_spec o d vs (zeros 16) 8 fuel O A L) as PS.
      change (blen (zeros 16)) with 16 in PS. specialize (PS ltac:(lia) eq_refl ltac:(lia) eq_refl Hlen Hf).
      pose proof (blen_nonneg (content (VStruct d vs))) as NC.
      assert (LU : forall w, blen (upd (zeros 16) 8 (le_enc 8 w)) = 16) by (intros; rewrite blen_upd by (rewrite ?blen_le_enc; change (blen (zeros 16)) with 16; lia); reflexivity).
      destruct (Z.eq_dec (o_ds o + o_ps o) 0) as [E0|NE].
      - destruct den_long as (D1 & D2 & D3). destruct fuel as [|f]; [cbn in Hf; lia|].
        unfold c_copy_pointer. cbn [g_copy].
        unfold as_pointer. assert (o_ds o = 0 /\ o_ps o = 0) as [E1 E2] by lia. rewrite E1, E2.
        rewrite kind_spec, new_struct_spec, w_struct_kind by lia. cbn [Z.eqb STRUCT]. unfold g_struct.
        rewrite data_size_spec, ptrs_size_spec, w_struct_dsize, w_struct_psize by lia.
        change (0 + 0 =? 0) with true. cbv iota.
        destruct (Rc_store (zeros 16) st1 8 (fenc Fq (new_struct (-1) 0 0)) R1) as (st2 & S2 & R2); [lia|rewrite blen_fenc; change (blen (zeros 16)) with 16; cbn [fsize]; lia|].
        exists st2. split; [exact S2|]. eexists. split; [exact PS|].
        destruct (obj_sizes _ _ _ O) as [S1' S2'].
        assert (d = []) by (apply blen_0_nil; lia). assert (vs = []) by (apply blen_0_nil; lia). subst d vs.
        rewrite blen_app, LU. change (content (VStruct [] [])) with (@nil byte). rewrite app_nil_r.
        split; [exact R2|]. change (blen (@nil byte)) with 0. lia.
      - destruct (as_pointer_den o d vs O A NE) as (D & N & K).
        destruct (step_agree fuel junk 16 (OCopy (o_seg o) (as_pointer o 0) 0 8) (16 + blen (content (VStruct d vs))) (zeros 16) st1)
          as (b2 & x2 & st2 & P2 & C2 & R2 & L2); [|reflexivity|exact R1|].
        { apply fit_copy; try assumption; try lia; try reflexivity; try (rewrite K; discriminate). destruct A as (_ & _ & A3). unfold slen in A3. lia. }
        cbn [py_step c_step] in P2, C2. unfold no_result in P2, C2. cbn [copy_from_struct] in PS |- *.
        rewrite PS in P2. cbn [bind] in P2. apply CReadFacts.ok_inj in P2. apply (f_equal fst) in P2. cbn [fst] in P2. subst b2.
        destruct (c_copy_pointer junk fuel (o_seg o) (as_pointer o 0) 0 st1 8) as [st2'|]; [|discriminate].
        cbn [bind] in C2. apply CReadFacts.ok_inj in C2. apply (f_equal fst) in C2. cbn [fst] in C2. subst st2'.
        exists st2. split; [reflexivity|]. eexists. split; [exact PS|]. split; [exact R2|]. rewrite L2. lia. }
    rewrite C2. cbn [bind]. rewrite P2 in PD. cbn [bind] in PD. rewrite (proj1 R2).
    destruct (step_agree fuel junk (blen b2) (OWrite FI 0 (1 - 1)) (blen b2) b2 st2) as (b3 & x3 & st3 & P3 & C3 & R3 & L3);
      [apply fit_write; [unfold in_fmt; cbn; lia|lia|cbn; lia]|reflexivity|exact R2|].
    cbn [py_step c_step] in P3, C3. unfold no_result in P3, C3.
    destruct (b_write FI b2 0 (1 - 1)) as [b3'|] eqn:W3; [|discriminate]. cbn [bind] in *.
    destruct (c_write FI st2 0 (1 - 1)) as [st3'|]; [|discriminate]. cbn [bind] in *.
    apply CReadFacts.ok_inj in C3, P3. apply (f_equal fst) in C3, P3. cbn [fst] in C3, P3. subst b3' st3'.
    destruct (step_agree fuel junk (blen b2) (OWrite FI 4 ((blen b2 - 8) / 8)) (blen b2) b3 st3) as (b4 & x4 & st4 & P4 & C4 & R4 & L4);
      [apply fit_write; [unfold in_fmt; cbn; lia|lia|cbn; lia]|exact L3|exact R3|].
    cbn [py_step c_step] in P4, C4. unfold no_result in P4, C4.
    destruct (b_write FI b3 4 _) as [b4'|] eqn:W4; [|discriminate]. cbn [bind] in *.
    destruct (c_write FI st3 4 _) as [st4'|]; [|discriminate]. cbn [bind] in *.
    apply CReadFacts.ok_inj in C4, P4. apply (f_equal fst) in C4, P4. cbn [fst] in C4, P4. subst b4' st4'.
    rewrite (Rc_string _ _ R4). exact PD.
  Qed.

  Lemma c_dumps_agree fp m : dumps fuel o fp = Ok m -> c_dumps junk fuel o fp = Ok m.
  Proof.
    destruct fp; [|rewrite c_dumps_slow; auto]. destruct den_long as (D1 & D2 & D3). destruct A as (A1 & A2 & A3). unfold slen in *.
    intros E. unfold dumps in E. destruct (o_get_end fuel o) as [e|] eqn:G; [|discriminate]. cbn [bind] in E.
    assert (CG : c_o_get_end fuel o = Ok e).
    { revert G. unfold o_get_end, c_o_get_end. rewrite C_new_struct_signed, c_add_small by lia.
      change (o_off o + -8) with (o_off o - 8). rewrite <- endof_wrap. intros G.
      apply (endof_agree (o_seg o)) in G; [|lia|lia|lia]. destruct G as (-> & _). reflexivity. }
    unfold c_dumps. rewrite CG. cbn [bind]. destruct (negb (e =? -1)) eqn:N.
    - rewrite C_new_struct_signed. apply dump_message_agree. exact E.
    - pose proof c_dumps_slow as S. unfold c_dumps, dumps in S. cbn [bind] in S. change (negb (-1 =? -1)) with false in S.
      cbv iota in S. rewrite S. exact E.
  Qed.
End dump.
