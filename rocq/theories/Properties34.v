(** Property theorem C88: whole runs of the emulator follow the reference machine. *)
From Coq Require Import String Ascii.
From Verif Require Import Base Cpu Alu Ops Machine Spec SpecOps SpecOps2 SpecSys SpecMul SpecStr SpecRun SpecTop SpecStop SpecIsa SpecRefuse SpecOutside SpecWhole PBase PSmall PIInt PIsa PStop PRefuse PRunAll Demo Properties1 Properties16 Properties21 Properties32 Properties33.
Local Open Scope Z_scope.

(** ** C88 *)
Section C88.
Context (E : env) (base : Z) (f : Z -> Z -> arch -> arch).
(** For every number n of instructions: the emulator executes n instructions as the reference machine does, or fewer, and then it stands at one of the
    things on the list [leaves_reference]. *)
Theorem C88_run n s : host_ok E base f -> machine E base (ar s) -> wf_state s -> 0 <= icount s -> icount s + Z.of_nat n <= 2147483647 ->
  exists k s', (k <= n)%nat /\ runs E k s s' /\ follows (port_in E) f k (ar s) (ar s') /\ (k = n \/ leaves_reference E s').
Proof. intros ([Hcb Hsv] & P & Q). exact (run_all E base f Hcb Hsv P Q n s). Qed.

(** Conversely, where RME_RunOne returns an error, or the return address, the reference machine has no step either (not behind a 00 00). *)
Theorem C88_end k s b : host_ok E base f -> machine E base (ar s) -> icount s <> 2147483647 -> lastnull s = false ->
  magic (ar s) \/ (exists c s', run_one E s = Err c s') -> ~ follows (port_in E) f (S k) (ar s) b.
Proof.
  intros ([Hcb Hsv] & P & Q) M Hi Hl D F. inversion F as [|k0 a0 pre p i R a1 a2 b0 Hn Hp Hc HI H1 HS _|k0 a0 a2 b0 Hh HS _]; subst.
  - assert (Hf : fetched E base s pre p i) by (split; [constructor; [apply M|apply M|exact Hn|exact Hi]|auto]).
    destruct (C87_step E base f s pre p i R (conj Hcb Hsv) M Hf Hl HI) as (x & s1 & _ & Hr & _). destruct D as [D|(c & s' & D)]; [destruct Hn as [Hn _]; exact (Hn D)|congruence].
  - pose proof Hh as [Hcs Hip]. pose proof (wf_ip _ (m_regs _ _ _ M)) as Wip. unfold inrange in Wip. pose proof (hle_machine E base f Hsv (r_ip (ar s)) (ar s) M) as Mh.
    destruct (hle_entry E base f s (r_ip (ar s)) Hcb Hcs eq_refl ltac:(lia) (m_flat _ _ _ Mh) (m_regs _ _ _ Mh)) as (s1 & Hr & _).
    destruct D as [[D _]|(c & s' & D)]; [lia|congruence].
Qed.

Lemma runs_go j : forall s s1 K sk, runs E j s s1 -> runs E K s sk -> (j < K)%nat -> exists s2, run_one E s1 = Ok tt s2.
Proof.
  induction j as [|j IH]; intros s s1 K sk H1 H2 L; inversion H1; subst.
  - inversion H2; subst; [lia|]. eauto.
  - inversion H2; subst; [lia|]. match goal with A : run_one E s = Ok tt ?x, B : run_one E s = Ok tt ?y |- _ => assert (x = y) by congruence; subst end. eapply IH; eauto. lia.
Qed.
(** A call that returns has followed the reference machine up to the return address, or has executed an exception (or 00 00, or code at the end of a segment) on the way. *)
Theorem C88_call fuel s s' : host_ok E base f -> machine E base (ar s) -> wf_state s -> 0 <= icount s -> icount s + Z.of_nat fuel <= 2147483647 ->
  rme_call E fuel s = Ok tt s' ->
  exists k s1, (k < fuel)%nat /\ runs E k s s1 /\ follows (port_in E) f k (ar s) (ar s1) /\
    ((s1 = s' /\ magic (ar s1)) \/
     ((exists s2, run_one E s1 = Ok tt s2) /\
      ((exists pre p bs, prefixes pre = Some p /\ code (ar s1) (pre ++ bs) /\ outside p (blen pre) (ar s1) bs) \/
       (forall pre p bs, prefixes pre = Some p -> code (ar s1) (pre ++ bs) -> opcode_read bs -> blen bs < 12) \/
       lastnull s1 = true))).
Proof.
  intros H M W H0 Hi HC. apply rme_call_ok in HC. destruct HC as (K & HK & sk & HR & He).
  destruct (C88_run K s H M W H0 ltac:(lia)) as (k & s1 & L & R & F & D). exists k, s1. split; [lia|]. split; [exact R|]. split; [exact F|].
  destruct (Nat.eq_dec k K) as [->|Hne].
  - left. rewrite (runs_fun _ _ _ _ _ HR R) in He. destruct (C02_magic_only E s1 _ s' He eq_refl) as [A B].
    destruct (C02_magic_stops E s1 0 A B) as [A3 _]. rewrite He in A3. injection A3 as ->. split; [reflexivity|split; assumption].
  - right. destruct D as [D|D]; [contradiction|]. destruct (runs_go k s s1 K sk R HR ltac:(lia)) as [s2 H2]. split; [eauto|]. destruct D as [[A B]|? ? ? ? ? ? ? ? X|pre p bs A B C|C|C].
    + destruct (C02_magic_stops E s1 0 A B) as [A3 _]. congruence.
    + congruence.
    + left. exists pre, p, bs. auto.
    + auto.
    + auto.
Qed.
(** The same for RME_CallInt, from the first instruction of the handler. *)
Theorem C88_call_int fuel n s s' : host_ok E base f -> 0 <= n < 256 -> machine E base (ar s) -> wf_state s -> 0 <= icount s -> icount s + Z.of_nat fuel <= 2147483647 ->
  call_int E fuel n s = Ok tt s' ->
  exists s0 k s1, same (ar s0) (enter_int n 65535 (a_ip 65535 (a_cs 65535 (ar s)))) /\
    (k < fuel)%nat /\ runs E k s0 s1 /\ follows (port_in E) f k (ar s0) (ar s1) /\
    ((s1 = s' /\ magic (ar s1)) \/
     ((exists s2, run_one E s1 = Ok tt s2) /\
      ((exists pre p bs, prefixes pre = Some p /\ code (ar s1) (pre ++ bs) /\ outside p (blen pre) (ar s1) bs) \/
       (forall pre p bs, prefixes pre = Some p -> code (ar s1) (pre ++ bs) -> opcode_read bs -> blen bs < 12) \/
       lastnull s1 = true))).
Proof.
  intros H Hn M W H0 Hi HC. destruct (call_int_start E base n s Hn M W) as (s0 & S & M0 & W0 & I0 & Hc). rewrite Hc in HC.
  destruct (C88_call fuel s0 s' H M0 W0 ltac:(lia) ltac:(lia) HC) as (k & s1 & K). exists s0, k, s1. split; [exact S|exact K].
Qed.
End C88.

(** INC AX; HLT. *)
Example C88_case : let s := demo [5; 0; 0; 0; 0x800; 0; 0; 0] 2 [] ([0x40; 0xF4] ++ ten)%list in
  host_ok demo_env HB (fun _ _ a => a) /\ machine demo_env HB (ar s) /\ wf_state s /\ 0 <= icount s /\ icount s + Z.of_nat 100 <= 2147483647 /\
  exists R, isa (port_in demo_env) (fun _ _ a => a) np 1 (ar s) [0x40] R.
Proof.
  cbv zeta. split; [split; [apply demo_services|split; [apply demo_polite|exact demo_quiet]]|]. split; [apply demo_machine; reflexivity|]. split; [apply demo_wf_state; reflexivity|].
  split; [vm_compute; discriminate|]. split; [vm_compute; discriminate|].
  eexists. eapply (I_unary _ _ np 1 _ [0x40] U_INC 16 (RReg 0)); [reflexivity|discriminate|exact I].
Qed.
(** The handler of C72_case (INC AX; IRET) returns. *)
Example C88_call_case : let s := demo [5; 0; 0; 0; 0x800; 0; 0; 0] 2 (blist 0x84 [0; 1; 0; 0x10]) [0x40; 0xCF] in
  host_ok demo_env HB (fun _ _ a => a) /\ machine demo_env HB (ar s) /\ wf_state s /\ icount s = 0 /\ exists s', call_int demo_env 3 0x21 s = Ok tt s'.
Proof.
  cbv zeta. split; [split; [apply demo_services|split; [apply demo_polite|exact demo_quiet]]|]. split; [apply demo_machine; reflexivity|]. split; [apply demo_wf_state; reflexivity|].
  split; [reflexivity|]. destruct C72_case as (_ & _ & s' & H & _). exists s'. exact H.
Qed.
Print Assumptions C88_run. Print Assumptions C88_end. Print Assumptions C88_call. Print Assumptions C88_call_int.
