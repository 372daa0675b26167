(** Proofs about the native tester: the state it starts the guest in. *)
From Verif Require Import Base Cpu Ops Machine Spec SpecOps SpecOps2 SpecSys SpecRun Native SpecNative PBase PMem PRun PExec PIInt PNative PNative2 PNative3.

Lemma mput_at x l m y : x <= y < x + Z.of_nat (length l) -> mput x l m y = nth (Z.to_nat (y - x)) l 0.
Proof. intros H. unfold mput. replace ((x <=? y) && (y <? x + Z.of_nat (length l))) with true by lia. reflexivity. Qed.
Lemma mput_out x l m y : ~ x <= y < x + Z.of_nat (length l) -> mput x l m y = m y.
Proof. intros H. unfold mput. replace ((x <=? y) && (y <? x + Z.of_nat (length l))) with false by lia. reflexivity. Qed.
Lemma mput_all x l m : (forall b, In b l -> 0 <= b < 256) -> (forall y, 0 <= m y < 256) -> forall y, 0 <= mput x l m y < 256.
Proof.
  intros H1 H2 y. unfold mput. destruct (_ && _) eqn:E; [|apply H2]. apply H1, nth_In. lia.
Qed.
Lemma ivt_out n m : forall y, 4 * Z.of_nat n <= y -> ivt n m y = m y.
Proof. induction n as [|n IH]; intros y H; [reflexivity|]. cbn [ivt]. rewrite mput_out by (cbn [length]; lia). apply IH. lia. Qed.
Lemma ivt_neg n m : forall y, y < 0 -> ivt n m y = m y.
Proof. induction n as [|n IH]; intros y H; [reflexivity|]. cbn [ivt]. rewrite mput_out by (cbn [length]; lia). apply IH. lia. Qed.
Lemma ivt_in n m k i : 0 <= k < Z.of_nat n -> 0 <= i < 4 -> ivt n m (4 * k + i) = nth (Z.to_nat i) [k; 0; 0x00; 0xB8] 0.
Proof.
  induction n as [|n IH]; intros Hk Hi; [lia|]. cbn [ivt]. destruct (Z.eq_dec k (Z.of_nat n)) as [->|].
  - rewrite mput_at by (cbn [length]; lia). f_equal. lia.
  - rewrite mput_out by (cbn [length]; lia). apply IH; lia.
Qed.
Lemma ivt_byte n m : Z.of_nat n <= 256 -> (forall y, 0 <= m y < 256) -> forall y, 0 <= ivt n m y < 256.
Proof.
  induction n as [|n IH]; intros Hn H; [exact H|]. cbn [ivt]. apply mput_all; [|apply IH; [lia|exact H]].
  intros b [<-|[<-|[<-|[<-|[]]]]]; lia.
Qed.
Lemma le_bytes_byte n : forall v b, In b (le_bytes n v) -> 0 <= b < 256.
Proof. induction n as [|n IH]; intros v b; cbn [le_bytes In]; [tauto|]. intros [<-|H]; [apply Z.mod_pos_bound; lia|eapply IH, H]. Qed.
Lemma disk_block_byte m : (forall y, 0 <= m y < 256) -> forall y, 0 <= disk_block m y < 256.
Proof. intros H. unfold disk_block. cbv zeta. repeat (apply mput_all; [intros b; apply le_bytes_byte|]). exact H. Qed.
Lemma disk_block_out m y : ~ 0xF1000 <= y < 0xF102A -> disk_block m y = m y.
Proof. intros H. unfold disk_block. cbv zeta. cbn [le_bytes]. repeat (rewrite mput_out; [|cbn [length]; lia]). reflexivity. Qed.
Lemma bios_byte y : 0 <= bios_memory y < 256.
Proof.
  unfold bios_memory. apply disk_block_byte. apply ivt_byte; [lia|]. apply mput_all; [intros b [<-|[<-|[]]]; lia|].
  intros z. unfold mfill. destruct (_ && _); lia.
Qed.
Lemma bios_ivt k i : 0 <= k < 256 -> 0 <= i < 4 -> bios_memory (4 * k + i) = nth (Z.to_nat i) [k; 0; 0x00; 0xB8] 0.
Proof. intros Hk Hi. unfold bios_memory. rewrite disk_block_out by lia. apply ivt_in; lia. Qed.
Lemma bios_high y : 1024 <= y -> ~ 0xF1000 <= y < 0xF102A -> bios_memory y = mput 0xF0000 [0x67; 201] (mfill 0xB8000 4000 0 (fun _ => 0xF1)) y.
Proof. intros H1 H2. unfold bios_memory. rewrite disk_block_out by lia. apply ivt_out. lia. Qed.
Lemma bios_screen y : 0xB8000 <= y < 0xB8FA0 -> bios_memory y = 0.
Proof.
  intros H. rewrite bios_high by lia. rewrite mput_out by (cbn [length]; lia). unfold mfill.
  replace ((753664 <=? y) && (y <? 753664 + 4000)) with true by lia. reflexivity.
Qed.
Lemma bios_fill y : 1024 <= y < 0xB8000 -> bios_memory y = 0xF1.
Proof.
  intros H. rewrite bios_high by lia. rewrite mput_out by (cbn [length]; lia). unfold mfill.
  replace ((753664 <=? y) && (y <? 753664 + 4000)) with false by lia. reflexivity.
Qed.

Section Native.
Context (GM : Z).
Lemma nt_byte debug cp cs ip ss m x : 0 <= x < 1114112 -> byte (ar (nt_state GM debug cp cs ip ss m)) x = m x.
Proof.
  intros H. unfold byte, host. cbn [nt_state ar hmem mtab]. unfold nt_host, GSIZE.
  replace (GM + 4096 * (x / 4096) + x mod 4096) with (GM + x) by lia. replace ((GM <=? GM + x) && (GM + x <? GM + 1114112)) with true by lia. f_equal. lia.
Qed.
Lemma nt_flat E debug cp cs ip ss m : 0 <= GM -> (null_check E = true -> GM <> 0) -> (forall y, 0 <= m y < 256) -> flat E GM (ar (nt_state GM debug cp cs ip ss m)).
Proof.
  intros H0 H1 H2. constructor; auto.
  - intros H ->. exfalso. apply H1; auto.
  - intros x Hx. exists (m x). cbn [nt_state ar hmem]. unfold nt_host, GSIZE. replace ((GM <=? GM + x) && (GM + x <? GM + 1114112)) with true by lia. split; [f_equal; f_equal; lia|apply H2].
Qed.
Lemma nt_host_ok debug cp cs ip ss m : (forall y, 0 <= m y < 256) -> host_ok GM (ar (nt_state GM debug cp cs ip ss m)).
Proof.
  intros H x [Hx|Hx]; cbn [nt_state ar hmem]; unfold nt_host, GSIZE, isbyte.
  - unfold guest in Hx. replace ((GM <=? x) && (x <? GM + 1114112)) with true by lia. eauto.
  - unfold global in Hx. replace ((GM <=? x) && (x <? GM + 1114112)) with false by lia. unfold G_CX, G_KEYS. replace ((GM + 2097152 <=? x) && (x <? GM + 2097168 + 32)) with true by lia.
    destruct (_ =? _); eexists; (split; [reflexivity|lia]).
Qed.
Lemma nt_wf debug cp cs ip ss m : 0 <= cs < 65536 -> 0 <= ip < 65536 -> 0 <= ss < 65536 -> wf_regs (ar (nt_state GM debug cp cs ip ss m)).
Proof.
  intros H1 H2 H3. constructor; cbn [nt_state ar gprs r_ss r_ds r_es r_fs r_gs r_cs r_ip r_flags]; unfold inrange; try lia.
  apply setf_range; unfold P_SP; lia.
Qed.
Lemma nt_wf_state debug cp cs ip ss m : 0 <= cs < 65536 -> 0 <= ip < 65536 -> 0 <= ss < 65536 -> (forall y, 0 <= m y < 256) -> wf_state (nt_state GM debug cp cs ip ss m).
Proof.
  intros H1 H2 H3 Hm. constructor; try (cbn; lia).
  - apply nt_wf; assumption.
  - intros x b. cbn [nt_state ar hmem]. unfold nt_host. destruct (_ && _); [intros [= <-]; apply Hm|]. destruct (_ && _); [|discriminate]. intros [= <-]. destruct (_ =? _); lia.
Qed.
Lemma nt_reg debug cp cs ip ss m n : 0 <= n < 8 -> reg 16 n (ar (nt_state GM debug cp cs ip ss m)) = if n =? 4 then 0xFFFE else 0.
Proof.
  intros H. assert (n = 0 \/ n = 1 \/ n = 2 \/ n = 3 \/ n = 4 \/ n = 5 \/ n = 6 \/ n = 7) as K by lia.
  destruct K as [->|[->|[->|[->|[->|[->|[->| ->]]]]]]]; reflexivity.
Qed.
Context (fdd : option (Z * (Z -> Z))).
Definition boot_memory (img : Z -> Z) : Z -> Z := last_word (fun y => if (0x7C00 <=? y) && (y <? 0x7E00) then img (y - 0x7C00) else bios_memory y).
Lemma boot_memory_byte img : (forall k, 0 <= k < 512 -> 0 <= img k < 256) -> forall y, 0 <= boot_memory img y < 256.
Proof.
  intros H. apply mput_all; [intros b [<-|[<-|[]]]; lia|]. intros y. destruct (Z.leb_spec 0x7C00 y), (Z.ltb_spec y 0x7E00); cbn [andb]; try apply bios_byte. apply H. lia.
Qed.
Lemma boot_memory_bios img y : ~ 0x7C00 <= y < 0x7E00 -> ~ 0x9FFFE <= y < 0xA0000 -> boot_memory img y = bios_memory y.
Proof.
  intros H1 H2. unfold boot_memory, last_word. rewrite mput_out by (cbn [length]; lia). replace ((31744 <=? y) && (y <? 32256)) with false by lia. reflexivity.
Qed.
Lemma boot_memory_img img k : 0 <= k < 512 -> boot_memory img (0x7C00 + k) = img k.
Proof.
  intros H. unfold boot_memory, last_word. rewrite mput_out by (cbn [length]; lia). replace ((31744 <=? 31744 + k) && (31744 + k <? 32256)) with true by lia. f_equal. lia.
Qed.
Theorem nt_boot_eq debug cp : nt_boot GM fdd debug cp =
  match fdd with
  | Some (len, img) => if (512 <=? len) && (img 510 =? 0x55) && (img 511 =? 0xAA) then Some (nt_state GM debug cp 0x07C0 0 0 (boot_memory img)) else None
  | None => None
  end.
Proof.
  unfold nt_boot. destruct fdd as [[len img]|]; [|reflexivity]. replace (len <? 512) with (negb (512 <=? len)) by lia. destruct (512 <=? len); reflexivity.
Qed.
Lemma vec_of a m n : (forall x, 0 <= x < 1024 -> byte a x = m x) -> (forall i, 0 <= i < 4 -> m (4 * n + i) = nth (Z.to_nat i) [n; 0; 0x00; 0xB8] 0) -> 0 <= n < 256 -> vector n a = (0xB800, n).
Proof.
  intros H1 H2 Hn. unfold vector, mem. change (Z.to_nat (16 / 8)) with 2%nat. cbn [peek].
  rewrite !H1 by lia. replace (4 * n) with (4 * n + 0) at 3 by lia. replace (4 * n + 2 + 1) with (4 * n + 3) by lia. rewrite !H2 by lia.
  change (nth (Z.to_nat 2) [n; 0; 0; 184] 0) with 0. change (nth (Z.to_nat 3) [n; 0; 0; 184] 0) with 184. change (nth (Z.to_nat 0) [n; 0; 0; 184] 0) with n. change (nth (Z.to_nat 1) [n; 0; 0; 184] 0) with 0.
  f_equal; lia.
Qed.
Theorem boot_ok gui nullc debug cp len img : 0 <= GM -> (nullc = true -> GM <> 0) -> fdd = Some (len, img) ->
  512 <= len -> (forall k, 0 <= k < 512 -> 0 <= img k < 256) -> img 510 = 0x55 -> img 511 = 0xAA ->
  exists s, nt_boot GM fdd debug cp = Some s /\ ready (nt_env GM fdd gui nullc) GM s /\ wf_state s /\ host_ok GM (ar s) /\
    hle (ar s) = nt_hle /\ r_cs (ar s) = 0x07C0 /\ r_ip (ar s) = 0 /\ r_ss (ar s) = 0 /\ cpu (ar s) = cp /\
    (forall n, 0 <= n < 8 -> reg 16 n (ar s) = if n =? SP then 0xFFFE else 0) /\
    (forall k, 0 <= k < 512 -> byte (ar s) (0x7C00 + k) = img k) /\
    (forall n, 0 <= n < 256 -> vector n (ar s) = (0xB800, n)) /\
    (forall x, 0xB8000 <= x < 0xB8000 + 2 * 80 * 25 -> byte (ar s) x = 0) /\
    (forall x, 0x400 <= x < 0x7C00 \/ 0x7E00 <= x < 0x9FFFE -> byte (ar s) x = 0xF1).
Proof.
  intros H0 Hnu Hfd Hl Hi S1 S2. rewrite nt_boot_eq, Hfd. replace ((512 <=? len) && (img 510 =? 85) && (img 511 =? 170)) with true by lia.
  pose proof (boot_memory_byte img Hi) as Hb. eexists. split; [reflexivity|].
  split. { constructor; [apply nt_flat; auto|apply nt_wf; lia|unfold normal_pc; cbn; lia|cbn; lia]. }
  split; [apply nt_wf_state; auto; lia|]. split; [apply nt_host_ok; auto|].
  split; [reflexivity|]. split; [reflexivity|]. split; [reflexivity|]. split; [reflexivity|]. split; [reflexivity|].
  split; [intros; apply nt_reg; assumption|].
  split; [intros k Hk; rewrite nt_byte by lia; apply boot_memory_img, Hk|].
  split. { intros n Hn. apply (vec_of _ (boot_memory img)); [intros; apply nt_byte; lia| |exact Hn]. intros i Hi'. rewrite boot_memory_bios by lia. apply bios_ivt; lia. }
  split; [intros x Hx; rewrite nt_byte, boot_memory_bios by lia; apply bios_screen; lia|].
  intros x Hx. rewrite nt_byte, boot_memory_bios by lia. apply bios_fill. lia.
Qed.
Theorem boot_refused debug cp : nt_boot GM fdd debug cp = None <->
  match fdd with Some (len, img) => len < 512 \/ img 510 <> 0x55 \/ img 511 <> 0xAA | None => True end.
Proof.
  rewrite nt_boot_eq. destruct fdd as [[len img]|]; [|tauto].
  destruct (Z.leb_spec 512 len), (Z.eqb_spec (img 510) 85), (Z.eqb_spec (img 511) 170); cbn [andb]; (split; [intros; try discriminate; lia|intros; try reflexivity; exfalso; lia]).
Qed.
End Native.
