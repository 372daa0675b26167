(** Property theorems C49: isolation of host memory; more about C11. *)
From Verif Require Import Base Cpu Alu Ops Machine Spec SpecOps SpecOps2 SpecSys SpecRun SpecTop PBase PMem PRun PFrame PExec PIso Demo Properties2.

(** ** C49: whatever the guest program and the state, the outcome of a run (error code, registers,
    memory, port log) does not depend on host memory outside the installed blocks (and the three
    bytes after each, see C10), and such memory is not changed. *)
Theorem C49_run_one E mt s1 s2 : cb_inside E -> same_inside E mt s1 s2 ->
  alike E mt (hmem (ar s1)) (hmem (ar s2)) (run_one E s1) (run_one E s2).
Proof. exact (run_isolated E mt s1 s2). Qed.
Theorem C49_call E mt n s1 s2 : cb_inside E -> same_inside E mt s1 s2 ->
  alike E mt (hmem (ar s1)) (hmem (ar s2)) (rme_call E n s1) (rme_call E n s2).
Proof. exact (call_isolated E mt n s1 s2). Qed.
Theorem C49_call_int E mt n num s1 s2 : cb_inside E -> same_inside E mt s1 s2 ->
  alike E mt (hmem (ar s1)) (hmem (ar s2)) (call_int E n num s1) (call_int E n num s2).
Proof. exact (call_int_isolated E mt n num s1 s2). Qed.
Lemma demo_inside : cb_inside demo_env.
Proof. intros h n mt s1 s2 S. cbn [demo_env callback]. auto. Qed.
(** Two machines whose host memories differ everywhere outside the guest's 1 MiB + 64 KiB (one has
    junk there, the other none), running STOSB. *)
Definition junk (s : st) : st := with_host (fun x => if (HB <=? x) && (x <? HB + 1114112 + 3) then hmem (ar s) x else Some 0xCC) s.
Definition stos : st := demo [0x41; 0; 0; 0; 0; 0; 0; 0x10] 2 [] [0xAA].
Lemma stos_accessible x : accessible demo_env (mtab (ar stos)) x -> HB <= x < HB + 1114112 + 3.
Proof. intros (b & Hb & _ & H). unfold stos, demo, demo_arch in H. cbn [ar mtab] in H. unfold HB in *. lia. Qed.
Example C49_case : cb_inside demo_env /\ same_inside demo_env (mtab (ar stos)) stos (junk stos) /\
  hmem (ar stos) 3 = None /\ hmem (ar (junk stos)) 3 = Some 0xCC /\
  exists s', run_one demo_env (junk stos) = Ok tt s' /\ hmem (ar s') (HB + 0x40010) = Some 0x41.
Proof.
  split; [exact demo_inside|]. split.
  - split; [reflexivity|]. split; [reflexivity|]. intros x H. apply stos_accessible in H.
    cbn [junk with_host set_ar a_hmem ar hmem]. replace ((HB <=? x) && (x <? HB + 1114112 + 3)) with true by lia. reflexivity.
  - split; [vm_compute; reflexivity|]. split; [vm_compute; reflexivity|].
    destruct (okb_ex (run_one demo_env (junk stos)) (fun s' => match hmem (ar s') (HB + 0x40010) with Some b => b =? 0x41 | None => false end))
      as (s' & H1 & H2); [vm_compute; reflexivity|]. exists s'. split; [exact H1|].
    destruct (hmem (ar s') _) as [b|]; [|discriminate]. apply Z.eqb_eq in H2. subst b. reflexivity.
Qed.
Print Assumptions C49_run_one. Print Assumptions C49_call. Print Assumptions C49_call_int.

(** ** C11, whole programs, in a build with the NULL check: a run never reads, writes or dereferences
    anything but (the bytes of, and three after) blocks installed with a non-NULL pointer; so NULL
    entries cannot be used, by any instruction, to reach host memory. *)
Definition non_null_block (mt : Z -> Z) (x : Z) : Prop := exists b, 0 <= b < 272 /\ mt b <> 0 /\ mt b <= x < mt b + 4099.
Lemma acc_checked E mt x : null_check E = true -> zero_null_ok E = false -> accessible E mt x -> non_null_block mt x.
Proof. intros HE HZ (b & Hb & H & Hx). exists b. split; [exact Hb|]. destruct (H HE) as [H1|[H1 _]]; [auto|congruence]. Qed.
Theorem C11_no_null_write_checked_partial E n s : null_check E = true -> zero_null_ok E = false -> cb_inside E ->
  forall s', rme_call E n s = Ok tt s' \/ (exists c, rme_call E n s = Err c s') ->
  forall x, ~ non_null_block (mtab (ar s)) x -> hmem (ar s') x = hmem (ar s) x.
Proof.
  intros HE HZ HC s' R x Hx.
  pose proof (call_isolated E (mtab (ar s)) n s s HC (inside_refl E s)) as H.
  assert (A : ~ accessible E (mtab (ar s)) x) by (intros A; apply Hx; eapply acc_checked; eauto).
  destruct R as [R|[c R]]; rewrite R in H; destruct H as (_ & _ & H); apply (H x A).
Qed.
Theorem C11_no_null_deref_checked_partial E n s : null_check E = true -> zero_null_ok E = false -> cb_inside E ->
  (forall x, non_null_block (mtab (ar s)) x -> hmem (ar s) x <> None) -> rme_call E n s <> UB UbDeref.
Proof. intros HE HZ HC B. apply call_deref; [exact HC|]. intros x A. apply B. eapply acc_checked; eauto. Qed.
(** The machine of [C11_null_refuted] (only block 16 installed), with the tail bytes backed. *)
Definition null_stack' : st := with_host (fun x => if (4096 <=? x) && (x <? 8195) then Some (if x =? 4096 + 256 then 0x50 else 0) else None) (null_stack checked_env).
Example C11_no_null_case : null_check checked_env = true /\ zero_null_ok checked_env = false /\ cb_inside checked_env /\
  (forall x, non_null_block (mtab (ar null_stack')) x -> hmem (ar null_stack') x <> None) /\
  (exists s', run_one checked_env null_stack' = Err E_BADMEM s') /\ run_one demo_env null_stack' = UB UbDeref.
Proof.
  split; [reflexivity|]. split; [reflexivity|]. split; [intros h n mt s1 s2 S; cbn [checked_env callback]; auto|]. split; [|split].
  - intros x (b & Hb & H1 & H2). unfold null_stack', null_stack, with_host in *. cbn [set_ar a_hmem ar mtab hmem] in *.
    destruct (b =? 16); [|exfalso; apply H1; reflexivity]. replace ((4096 <=? x) && (x <? 8195)) with true by lia. discriminate.
  - destruct (errb_ex E_BADMEM (run_one checked_env null_stack') (fun _ => true)) as (s' & H & _); [vm_compute; reflexivity|eauto].
  - apply is_ub_eq. vm_compute. reflexivity.
Qed.
Print Assumptions C11_no_null_write_checked_partial. Print Assumptions C11_no_null_deref_checked_partial.
