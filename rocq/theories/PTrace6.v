(** The name of the instruction in its trace line (C83). *)
From Coq Require Import String Ascii.
From Verif Require Import Base Cpu Alu Ops Machine Trace Spec SpecOps SpecRun SpecTop SpecCodes SpecStop PBase PMem PRun PFrame PExec PStop PStop2 PCodes Dump SpecDump PDump TraceText SpecTrace SpecNames PTrace PTrace2 PTrace3 PTrace4.
Local Open Scope string_scope.
Local Open Scope Z_scope.

(** ** A text maker succeeds when there are enough bytes. *)
Definition need (k : nat) (f : maker) : Prop := forall l, (k <= List.length l)%nat -> exists t r, f l = Some (t, r) /\ (List.length l <= List.length r + k)%nat.
Lemma need_le k j f : need k f -> (k <= j)%nat -> need j f.
Proof. intros H L l Hl. destruct (H l ltac:(lia)) as (t & r & E & Q). exists t, r. split; [exact E|lia]. Qed.
Lemma need_say t : need 0 (say t). Proof. intros l _. exists t, l. split; [reflexivity|lia]. Qed.
Lemma need_r8 f : need 1 (r8 f). Proof. intros [|b l] H; cbn [List.length] in *; [lia|]. exists (f b), l. split; [reflexivity|lia]. Qed.
Lemma need_r16 f : need 2 (r16 f). Proof. intros [|a [|b l]] H; cbn [List.length] in *; try lia. eexists _, l. split; [reflexivity|lia]. Qed.
Lemma need_r32 f : need 4 (r32 f). Proof. intros [|a [|b [|c [|d l]]]] H; cbn [List.length] in *; try lia. eexists _, l. split; [reflexivity|lia]. Qed.
Lemma need_then k j f g : need k f -> need j g -> need (k + j) (f >> g).
Proof. intros F G l Hl. destruct (F l ltac:(lia)) as (t & r & E1 & L1). destruct (G r ltac:(lia)) as (u & q & E2 & L2). exists (t ++ u), q. unfold then_. rewrite E1, E2. split; [reflexivity|lia]. Qed.
Lemma need_if (b : bool) k f g : need k f -> need k g -> need k (if b then f else g). Proof. destruct b; auto. Qed.
Lemma need_imm8 : need 1 imm8. Proof. apply need_r8. Qed.
Lemma need_immx x : need 4 (immx x). Proof. unfold immx. apply need_if; [apply need_r32|eapply need_le; [apply need_r16|lia]]. Qed.
Lemma need_sib b d : need 5 (sib_t b d).
Proof.
  intros [|c l] H; cbn [List.length] in *; [lia|]. unfold sib_t. cbv zeta. destruct (b && _).
  - match goal with |- context [r32 ?f l] => destruct (need_r32 f l ltac:(lia)) as (t & r & -> & L) end. exists t, r. split; [reflexivity|lia].
  - eexists _, l. split; [reflexivity|lia].
Qed.
Lemma need_mem x md m : need 9 (mem_t x md m).
Proof.
  unfold mem_t. apply need_if.
  - apply need_if.
    + apply need_if; [eapply need_le; [apply (need_then 0 5); [apply need_say|apply need_sib]|lia]|]. apply need_if; [eapply need_le; [apply need_r32|lia]|eapply need_le; [apply need_say|lia]].
    + intros l Hl.
      assert (D : need 4 (if md =? 1 then r8 (fun v => "+0x" ++ fmt_x 0 (sx 16 v)) else r32 (fun v => "+0x" ++ fmt_x 0 (v mod 65536)))) by (apply need_if; [eapply need_le; [apply need_r8|lia]|apply need_r32]).
      destruct (D l ltac:(lia)) as (t & r & -> & L). destruct (m =? 4).
      * destruct (need_then 0 5 _ _ (need_say (open_t x md m)) (need_sib false t) r ltac:(lia)) as (u & q & -> & L2). exists u, q. split; [reflexivity|lia].
      * eexists _, r. split; [reflexivity|lia].
  - apply need_if; [apply need_if; [eapply need_le; [apply need_r16|lia]|eapply need_le; [apply need_say|lia]]|apply need_if; eapply need_le; [apply need_r8|lia|apply need_r16|lia]].
Qed.
Lemma need_rm x w b : need 9 (rm_t x w b). Proof. unfold rm_t. apply need_if; [eapply need_le; [apply need_say|lia]|apply need_mem]. Qed.
Lemma need_modrm2 x wr wm pos : need 10 (modrm_t2 x wr wm pos).
Proof.
  intros [|b l] H; cbn [List.length] in *; [lia|]. unfold modrm_t2. cbv zeta.
  assert (K : forall f, need 9 f -> exists t r, f l = Some (t, r) /\ (S (List.length l) <= List.length r + 10)%nat) by (intros f F; destruct (F l ltac:(lia)) as (t & r & E & L); exists t, r; split; [exact E|lia]).
  destruct pos; apply K; [apply need_rm|apply (need_then 0 9); [apply need_say|apply need_rm]|apply (need_then 9 0); [apply need_rm|apply need_say]].
Qed.
Lemma need_modrm x w pos : need 10 (modrm_t x w pos). Proof. apply need_modrm2. Qed.
Lemma need_mov_seg x f : need 10 (mov_seg_t x f).
Proof.
  intros [|b l] H; cbn [List.length] in *; [lia|]. unfold mov_seg_t. cbv zeta.
  assert (K : forall f, need 9 f -> exists t r, f l = Some (t, r) /\ (S (List.length l) <= List.length r + 10)%nat) by (intros g F; destruct (F l ltac:(lia)) as (t & r & E & L); exists t, r; split; [exact E|lia]).
  destruct f; apply K; [apply (need_then 9 0); [apply need_rm|apply need_say]|apply (need_then 0 9); [apply need_say|apply need_rm]].
Qed.
Lemma need_misc x w : need 14 (misc_t x w).
Proof.
  intros [|b l] H; [cbn in H; lia|]. unfold misc_t. apply (need_then 10 4); [apply need_modrm|apply need_if; [apply need_if; [apply need_immx|eapply need_le; [apply need_imm8|lia]]|eapply need_le; [apply need_say|lia]]|exact H].
Qed.
Lemma need_moffs x : need 4 (moffs_t x).
Proof. unfold moffs_t. apply (need_then 0 4); [apply need_say|]. apply need_if; [apply need_r32|eapply need_le; [apply need_r16|lia]]. Qed.
Lemma need_far : need 4 far_t. Proof. intros [|a [|b [|c [|d l]]]] H; cbn [List.length] in *; try lia. eexists _, l. split; [reflexivity|lia]. Qed.
Lemma need_rel : need 2 rel16. Proof. apply need_r16. Qed.
Ltac nd := lazymatch goal with
  | |- need _ (if _ then _ else _) => apply need_if; nd
  | |- need _ (say _) => eapply need_le; [apply need_say|lia]
  | |- need _ (r8 _) => eapply need_le; [apply need_r8|lia]
  | |- need _ imm8 => eapply need_le; [apply need_r8|lia]
  | |- need _ (r16 _) => eapply need_le; [apply need_r16|lia]
  | |- need _ rel16 => eapply need_le; [apply need_rel|lia]
  | |- need _ (r32 _) => eapply need_le; [apply need_r32|lia]
  | |- need _ (immx _) => eapply need_le; [apply need_immx|lia]
  | |- need _ far_t => eapply need_le; [apply need_far|lia]
  | |- need _ (moffs_t _) => eapply need_le; [apply need_moffs|lia]
  | |- need _ (modrm_t _ _ _) => eapply need_le; [apply need_modrm|lia]
  | |- need _ (modrm_t2 _ _ _ _) => eapply need_le; [apply need_modrm2|lia]
  | |- need _ (mov_seg_t _ _) => eapply need_le; [apply need_mov_seg|lia]
  | |- need _ (misc_t _ _) => eapply need_le; [apply need_misc|lia]
  | |- need _ (str_t _ _ _ _ _) => eapply need_le; [apply need_say|lia]
  | |- need _ (say _ >> _) => eapply need_le; [apply (need_then 0 4); nd|lia]
  | |- need _ (moffs_t _ >> _) => eapply need_le; [apply (need_then 4 0); nd|lia]
  | |- need _ (modrm_t _ _ _ >> _) => eapply need_le; [apply (need_then 10 4); nd|lia]
  | |- need _ (r16 _ >> _) => eapply need_le; [apply (need_then 2 1); nd|lia]
  end.
Lemma need_handler0F x op : need 14 (handler0F x op). Proof. unfold handler0F. nd. Qed.
Lemma need_handler x op : op <> 15 -> need 14 (handler x op).
Proof. intros H. unfold handler. cbv zeta. replace (op =? 15) with false by lia. nd. Qed.

(** ** The prefixes *)
Definition lead (a : string) : string := if (String.length a =? 0)%nat then "" else a ++ " ".
Lemma prefix_exact p b p' x l : add_prefix p b = Some p' -> exists n t x', op_text b l = Some n /\ prefix_t x b = Some (t, x') /\ announce b = n ++ t ++ " " /\ n <> "".
Proof.
  intros H. pose proof (prefix_cases p b p' H) as C. cbn [In] in C.
  repeat (destruct C as [<-|C]; [eexists _, _, _; split; [reflexivity|]; split; [reflexivity|]; split; [reflexivity|discriminate]|]). contradiction.
Qed.
Lemma lead_app a n : lead a ++ n = a ++ (if (String.length a =? 0)%nat then "" else " ") ++ n.
Proof. unfold lead. destruct a as [|c a]; [reflexivity|]. cbn [String.length Nat.eqb]. rewrite app_assoc_s. reflexivity. Qed.
Lemma lead_some a : a <> "" -> lead a = a ++ " ". Proof. destruct a; [congruence|reflexivity]. Qed.
Lemma text_announced pre : forall p p' x acc l fuel, prefixes_from p pre = Some p' -> (List.length pre <= fuel)%nat ->
  exists x' acc', text fuel x acc (pre ++ l) = text (fuel - List.length pre) x' acc' l /\ lead acc' = lead acc ++ announced pre.
Proof.
  induction pre as [|b pre IH]; intros p p' x acc l fuel H Hl; cbn [prefixes_from List.length app] in *.
  - exists x, acc. rewrite Nat.sub_0_r. split; [reflexivity|]. unfold announced. cbn. symmetry. apply app_empty.
  - destruct (add_prefix p b) as [p1|] eqn:E1; [|discriminate]. destruct fuel as [|fuel]; [lia|].
    destruct (prefix_exact p b p1 x (pre ++ l)%list E1) as (n & t & x1 & En & Et & Ea & Nn). cbn [text]. rewrite En, Et.
    destruct (IH p1 p' x1 ((acc ++ (if (String.length acc =? 0)%nat then "" else " ") ++ n) ++ t) l fuel H ltac:(lia)) as (x' & acc' & E2 & L2).
    exists x', acc'. split; [exact E2|]. rewrite L2. unfold announced. cbn [map joined]. rewrite Ea, <- lead_app.
    rewrite lead_some; [rewrite !app_assoc_s; reflexivity|]. destruct (lead acc); [destruct n; [congruence|discriminate]|discriminate].
Qed.

(** ** The names *)
Definition wr (k n f : string) : bool := String.eqb k n || String.eqb k (n ++ f) || (String.eqb n "Flag" && String.eqb k f).
Lemma wr_ok k n f : wr k n f = true -> written k n f.
Proof. unfold wr, written. rewrite !orb_true_iff, andb_true_iff, !String.eqb_eq. tauto. Qed.
Definition chk (os : bool) (op : Z) (t : list Z) : bool :=
  match nth (Z.to_nat op) op_names None with
  | Some (n, f) =>
    let n' := match sub_names op with Some ns => match t with m :: _ => name_of ns ((m / 8) mod 8) | [] => "" end | None => n end in
    existsb (fun k => wr k n' f) (mnemonics os (op :: t)) || (os && isin op (map fst manual_sized))
  | None => false
  end.
(** Opcodes the sweep covers, with the operation [g] in the ModR/M byte. *)
Definition swept (op g : Z) : bool :=
  negb (isin op [15; 38; 46; 54; 62; 100; 101; 102; 103; 242; 243; 241] || isin op undefined1 || (isin op [246; 247] && (g =? 1)) || ((op =? 254) && (2 <=? g)) || ((op =? 255) && ((g =? 7) || ((2 <=? g) && (g <=? 5))))).
Lemma chk_all : forallb (fun op => forallb (fun g => negb (swept (Z.of_nat op) (Z.of_nat g)) || (chk false (Z.of_nat op) [8 * Z.of_nat g] && chk true (Z.of_nat op) [8 * Z.of_nat g])) (seq 0 8)) (seq 0 256) = true.
Proof. vm_compute. reflexivity. Qed.
Lemma chk_short : forallb (fun op => negb (swept (Z.of_nat op) 0) || match sub_names (Z.of_nat op) with Some _ => true | None => chk false (Z.of_nat op) [] && chk true (Z.of_nat op) [] end) (seq 0 256) = true.
Proof. vm_compute. reflexivity. Qed.
Lemma mn_unfold os op m t : op <> 15 -> mnemonics os (op :: m :: t) = (named_in manual op ++ map (fun e => if os then snd (snd e) else fst (snd e)) (filter (fun e => op =? fst e) manual_sized)
      ++ flat_map (fun e => if isin op (fst e) then nth (Z.to_nat ((m / 8) mod 8)) (snd e) [] else []) manual_groups)%list.
Proof. intros H15. unfold mnemonics. destruct op as [|q|q]; try reflexivity. do 4 (destruct q as [q|q|]; try reflexivity). contradiction H15. reflexivity. Qed.
Lemma mn_ff os m t : mnemonics os (255 :: m :: t) = nth (Z.to_nat ((m / 8) mod 8)) [["INC"]; ["DEC"]; ["CALL"]; ["CALL"]; ["JMP"]; ["JMP"]; ["PUSH"]; []] [].
Proof.
  rewrite mn_unfold by discriminate. generalize (Z.to_nat ((m / 8) mod 8)). intros i.
  change (named_in manual 255) with (@nil string). change (filter (fun e : Z * (string * string) => 255 =? fst e) manual_sized) with (@nil (Z * (string * string))). cbn [map app].
  do 8 (destruct i as [|i]; [reflexivity|]). destruct i; reflexivity.
Qed.
Lemma chk_reg os op m t : 0 <= op < 256 -> op <> 15 -> chk os op (m :: t) = chk os op [8 * ((m / 8) mod 8)].
Proof.
  intros H H15. unfold chk. destruct (nth _ op_names None) as [[n f]|]; [|reflexivity]. replace (8 * ((m / 8) mod 8) / 8 mod 8) with ((m / 8) mod 8) by lia.
  assert (M : mnemonics os (op :: m :: t) = mnemonics os [op; 8 * ((m / 8) mod 8)]); [|rewrite M; reflexivity].
  rewrite !mn_unfold by exact H15. replace (8 * ((m / 8) mod 8) / 8 mod 8) with ((m / 8) mod 8) by lia. reflexivity.
Qed.
Lemma isin_In b l : isin b l = true <-> In b l.
Proof. unfold isin. rewrite existsb_exists. split; [intros (y & I & E); apply Z.eqb_eq in E; subst; exact I|intros I; exists b; split; [exact I|apply Z.eqb_refl]]. Qed.
Lemma swept_chk os op t : 0 <= op < 256 -> swept op (match t with m :: _ => (m / 8) mod 8 | [] => 0 end) = true -> (t = [] -> sub_names op = None) -> chk os op t = true.
Proof.
  intros H Hs Ht. destruct t as [|m t].
  - pose proof chk_short as A. rewrite forallb_forall in A. specialize (A (Z.to_nat op) ltac:(apply in_seq; lia)). rewrite Z2Nat.id in A by lia. rewrite Hs in A. rewrite (Ht eq_refl) in A. cbn [negb orb] in A. apply andb_true_iff in A. destruct os; apply A.
  - rewrite chk_reg; [|exact H|intros ->; discriminate Hs].
    pose proof chk_all as A. rewrite forallb_forall in A. specialize (A (Z.to_nat op) ltac:(apply in_seq; lia)). rewrite forallb_forall in A. specialize (A (Z.to_nat ((m / 8) mod 8)) ltac:(apply in_seq; lia)).
    rewrite !Z2Nat.id in A by lia. rewrite Hs in A. cbn [negb orb] in A. apply andb_true_iff in A. destruct os; apply A.
Qed.
(** Instructions that are not executed. *)
Definition refused_form (bs : list Z) : bool :=
  match bs with
  | 15 :: op :: _ => op =? 186
  | op :: t => (isin op [246; 247] && (reg_field t =? 1)) || ((op =? 254) && (2 <=? reg_field t)) || ((op =? 255) && (reg_field t =? 7))
  | [] => false
  end.
Notation named := named_as.
Lemma name_one os op t tl : 0 <= op < 256 -> op <> 15 -> opcode_read (op :: t) -> ~ In op undefined1 -> refused_form (op :: t) = false -> (t = [] -> tl <> []) ->
  exists name form ops, op_text op (t ++ tl) = Some (name ++ " (" ++ form ++ ")" ++ ops) /\ (ops = "" \/ ops = " (MX)") /\ forall more, named os (op :: t) name form (ops ++ more).
Proof.
  intros H H15 (Np & N241 & Hmr) Nu Nr Htl.
  destruct (swept op (match t with m :: _ => (m / 8) mod 8 | [] => 0 end)) eqn:Sw.
  - assert (Hs : t = [] -> sub_names op = None).
    { intros ->. destruct (Hmr eq_refl) as [_ Hm]. unfold sub_names. destruct (sub_names op) eqn:Es; [|exact Es]. exfalso. revert Es Hm Nu. unfold sub_names.
      assert (A : forallb (fun i => match sub_names (Z.of_nat i), has_modrm [Z.of_nat i] with Some _, None => false | _, _ => true end) (seq 0 256) = true) by (vm_compute; reflexivity).
      rewrite forallb_forall in A. specialize (A (Z.to_nat op) ltac:(apply in_seq; lia)). rewrite Z2Nat.id in A by lia. unfold sub_names in A. intros Es Hm _. rewrite Es, Hm in A. discriminate. }
    pose proof (swept_chk os op t H Sw Hs) as K. unfold chk in K. unfold op_text. destruct (nth _ op_names None) as [[n f]|]; [|discriminate].
    set (n' := match sub_names op with Some ns => match t with m :: _ => name_of ns ((m / 8) mod 8) | [] => "" end | None => n end) in *.
    exists n', f, "". split.
    + unfold n'. destruct (sub_names op) as [ns|] eqn:Es; [|rewrite ?app_empty; reflexivity]. destruct t as [|m t]; [specialize (Hs eq_refl); congruence|]. cbn [app]. rewrite ?app_empty. reflexivity.
    + split; [left; reflexivity|]. intros more. unfold named_as. apply orb_true_iff in K. destruct K as [K|K].
      * right. apply existsb_exists in K. destruct K as (k & I & Wk). exists k. split; [exact I|]. left. apply wr_ok, Wk.
      * left. apply andb_true_iff in K. destruct K as [-> K]. apply isin_In in K. unfold misnamed. destruct op as [|q|q]; try (split; [reflexivity|exact K]). do 4 (destruct q as [q|q|]; try (split; [reflexivity|exact K])). contradiction H15. reflexivity.
  - (* FF /2../5 *)
    assert (C : op = 255 /\ exists m u, t = m :: u /\ 2 <= (m / 8) mod 8 <= 5).
    { unfold swept in Sw. apply negb_false_iff in Sw. rewrite !orb_true_iff in Sw. unfold refused_form in Nr.
      assert (Nr' : (isin op [246; 247] && (reg_field t =? 1)) || ((op =? 254) && (2 <=? reg_field t)) || ((op =? 255) && (reg_field t =? 7)) = false).
      { revert Nr. destruct op as [|q|q]; try (intros Nr; exact Nr). do 4 (destruct q as [q|q|]; try (intros Nr; exact Nr)). contradiction H15. reflexivity. }
      unfold reg_field in Nr'. rewrite !orb_false_iff in Nr'. destruct Nr' as ((R1 & R2) & R3).
      destruct Sw as [[[[Sw|Sw]|Sw]|Sw]|Sw].
      - exfalso. apply isin_In in Sw. unfold prefix_byte in Np. cbn [In] in Sw, Np. lia.
      - exfalso. apply isin_In in Sw. contradiction.
      - exfalso. destruct t; [change (0 =? 1) with false in Sw; rewrite andb_false_r in Sw; discriminate|]. congruence.
      - exfalso. destruct t; [change (2 <=? 0) with false in Sw; rewrite andb_false_r in Sw; discriminate|]. congruence.
      - destruct t as [|m u]; [rewrite andb_true_iff in Sw; destruct Sw as [_ Sw]; discriminate Sw|]. apply andb_true_iff in Sw. destruct Sw as [E255 Sw]. split; [lia|]. exists m, u. split; [reflexivity|].
        rewrite E255 in R3. cbn [andb] in R3. rewrite R3 in Sw. cbn [orb] in Sw. lia. }
    destruct C as (-> & m & u & -> & Hg). set (g := (m / 8) mod 8) in *.
    assert (Eg : g = 2 \/ g = 3 \/ g = 4 \/ g = 5) by lia.
    pose proof (mn_ff os m u) as Em. fold g in Em.
    unfold named_as. rewrite Em. assert (Eo : op_text 255 ((m :: u) ++ tl) = Some (name_of ops_unary g ++ " (MX)")) by reflexivity. rewrite Eo.
    destruct Eg as [->|[->|[->| ->]]]; [exists "CALL", "NI", " (MX)"|exists "CALL", "FI", " (MX)"|exists "JMP", "NI", " (MX)"|exists "JMP", "FI", " (MX)"];
      (split; [reflexivity|]; split; [right; reflexivity|]; intros more; right; eexists; split; [left; reflexivity|]; left; left; reflexivity).
Qed.
Lemma blank_handler0F x b l t r : In b defined0F -> handler0F x b l = Some (t, r) -> t = "" \/ exists v, t = " " ++ v.
Proof.
  intros Hb. assert (K : forall w1 w2 pos u q, modrm_t2 x w1 w2 pos l = Some (u, q) -> exists v, u = " " ++ v).
  { intros w1 w2 pos u q. unfold modrm_t2. destruct l as [|c l']; [discriminate|]. cbv zeta.
    assert (R : forall f w n q' u', (say (if (w : bool) then regw_t x n else regb_t n) >> f) l' = Some (u', q') -> exists v, u' = " " ++ v).
    { intros f w n q' u'. unfold then_, say. destruct (f l') as [[a b']|]; [|discriminate]. intros [= <- <-]. destruct w; [unfold regw_t|unfold regb_t]; rewrite !app_assoc_s; eexists; reflexivity. }
    assert (O : forall md m tt, exists v, open_t x md m ++ tt = " " ++ v) by (intros; unfold open_t, seg_t; rewrite !app_assoc_s; eexists; reflexivity).
    assert (M : forall md m u' q', mem_t x md m l' = Some (u', q') -> exists v, u' = " " ++ v).
    { intros md m u' q'. unfold mem_t, then_, say, r8, r16, r32.
      repeat match goal with |- context [if ?b then _ else _] => destruct b end;
        repeat match goal with |- context [match l' with [] => _ | _ :: _ => _ end] => destruct l' as [|? l']; try discriminate end;
        repeat match goal with |- context [match ?e with Some _ => _ | None => _ end] => destruct e as [[? ?]|] eqn:?; try discriminate end;
        intros E; try (injection E as <- <-); try apply O.
      all: repeat match goal with H : Some (_, _) = Some (_, _) |- _ => injection H as <- <- end; try apply O. }
    destruct pos.
    - unfold rm_t. destruct (_ =? 3); [|apply M]. unfold say. intros [= <- <-]. destruct w2; eexists; reflexivity.
    - apply R.
    - unfold then_ at 1. destruct (rm_t x w2 c l') as [[a b']|] eqn:Er; [|discriminate]. unfold say. intros [= <- <-].
      revert Er. unfold rm_t. destruct (_ =? 3); [unfold say; intros [= <- <-]; destruct w2; [unfold regw_t|unfold regb_t]; rewrite !app_assoc_s; eexists; reflexivity|]. intros Er. destruct (M _ _ _ _ Er) as [v ->]. rewrite app_assoc_s. eexists. reflexivity. }
  assert (T : forall w1 w2 pos g u q, (modrm_t2 x w1 w2 pos >> g) l = Some (u, q) -> exists v, u = " " ++ v).
  { intros w1 w2 pos g u q. unfold then_. destruct (modrm_t2 x w1 w2 pos l) as [[a c]|] eqn:E1; [|discriminate]. destruct (K _ _ _ _ _ E1) as [v ->]. destruct (g c) as [[e f]|]; [|discriminate]. intros [= <- <-]. eexists. reflexivity. }
  unfold handler0F, modrm_t. repeat match goal with |- (if ?b then _ else _) l = _ -> _ => destruct b end; intros Hh; try (right; eapply K, Hh); try (right; eapply T, Hh).
  - right. unfold rel16, r16 in Hh. destruct l as [|a [|c l']]; try discriminate. injection Hh as <- _. eexists. reflexivity.
  - right. injection Hh as <- _. eexists. reflexivity.
  - right. injection Hh as <- _. eexists. reflexivity.
  - left. injection Hh as <- _. reflexivity.
Qed.
Lemma name_0F os b t : In b defined0F -> b <> 186 -> exists n, op_names0F b = Some n /\ (misnamed os (15 :: b :: t) \/ In n (mnemonics os (15 :: b :: t))).
Proof.
  intros Hb Hn. assert (A : forallb (fun b => (b =? 186) || match op_names0F b with Some n => (b =? 182) || (b =? 183) || existsb (String.eqb n) (named_in manual0F b) | None => false end) defined0F = true) by (vm_compute; reflexivity).
  rewrite forallb_forall in A. specialize (A b Hb). replace (b =? 186) with false in A by lia. cbn [orb] in A. destruct (op_names0F b) as [n|]; [|discriminate]. exists n. split; [reflexivity|].
  rewrite !orb_true_iff in A. destruct A as [[A|A]|A]; [left; cbn; lia|left; cbn; lia|]. right. apply existsb_exists in A. destruct A as (k & I & E). apply String.eqb_eq in E. subst. exact I.
Qed.
Lemma limited_cut t : cut t = limited t. Proof. reflexivity. Qed.
(** The whole text in the middle of a line. *)
Lemma middle_named E base s pre p bs s1 : warning p bs (warning_t E s s1) -> fetched E base s pre p bs -> wf_state s -> opcode_read bs -> blen bs <= 15 -> ~ undefined_opcode bs -> refused_form bs = false ->
  exists w name form ops, middle E s s1 = w ++ " " ++ limited (announced pre ++ name ++ " (" ++ form ++ ")" ++ ops) /\ warning p bs w /\ named (p_os p) bs name form ops.
Proof.
  intros Wn Hf W Hr Hl Hu Hn. pose proof Hf as ([F Wr PC _] & Hp & C). pose proof (prefixes_length _ _ Hp) as Hpl. unfold blen in Hl.
  destruct (window_code E base s (pre ++ bs) F W C ltac:(rewrite app_length; lia)) as (tl & Ew & Lt). rewrite app_length in Lt.
  pose proof (code_bytes E base _ _ _ _ Hf) as Hbb. destruct bs as [|op t]; [destruct Hr|].
  change (middle E s s1) with (warning_t E s s1 ++ " " ++ debug_string E s s1). revert Wn. generalize (warning_t E s s1). intros w Wn. unfold debug_string. rewrite Ew, <- app_assoc.
  destruct (text_announced pre (mkPfx None false false 0) p (ctx0 s s1) "" ((op :: t) ++ tl)%list 6 Hp ltac:(lia)) as (x & acc & Et & La). rewrite Et.
  assert (Ef : exists f, (6 - List.length pre)%nat = S f) by (exists (5 - List.length pre)%nat; lia). destruct Ef as [f ->].
  assert (P0 : prefix_t x op = None).
  { destruct Hr as (Np & _). unfold prefix_byte in Np. cbn [In] in Np. unfold prefix_t. repeat match goal with |- context [?a =? ?b] => replace (a =? b) with false by lia end. reflexivity. }
  destruct (Z.eq_dec op 15) as [->|H15].
  - destruct t as [|b t]; [destruct Hr as (_ & _ & X); destruct (X eq_refl) as [X1 _]; congruence|].
    assert (Hd : In b defined0F). { destruct (in_dec Z.eq_dec b defined0F) as [I|N]; [exact I|]. exfalso. apply Hu. right. split; [reflexivity|exact N]. }
    assert (N186 : b <> 186) by (intros ->; discriminate Hn).
    destruct (name_0F (p_os p) b t Hd N186) as (n & En & Hm).
    destruct (need_handler0F x b (t ++ tl)%list) as (u & q & Eh & _); [rewrite app_length; cbn [List.length] in *; lia|].
    cbn [text app]. rewrite P0. change (op_text 15 (b :: t ++ tl)) with (Some "Ext (0F)"). cbv iota.
    assert (E15 : handler x 15 (b :: (t ++ tl)%list) = Some ((" " ++ n) ++ u, q)) by (unfold handler; change (15 =? 15) with true; cbv beta iota; rewrite En; unfold then_, say; rewrite Eh; reflexivity). rewrite E15.
    match goal with |- context [cut ?z] => replace (cut z) with (limited (announced pre ++ "Ext" ++ " (" ++ "0F" ++ ")" ++ " " ++ n ++ u)) end.
    2:{ match goal with |- limited ?a = cut ?b => change (limited a = limited b) end. f_equal. rewrite <- (lead_app acc), La. cbn [lead String.length Nat.eqb append]. rewrite !app_assoc_s. reflexivity. }
    exists w, "Ext", "0F", (" " ++ n ++ u). split; [reflexivity|]. split; [exact Wn|].
    unfold named_as. destruct Hm as [Hm|Hm]; [left; exact Hm|]. right. exists n. split; [exact Hm|]. right. split; [reflexivity|]. split; [reflexivity|]. exists u. split; [reflexivity|]. eapply blank_handler0F; eauto.
  - assert (B0 : 0 <= op < 256) by (apply Hbb; left; reflexivity).
    destruct (name_one (p_os p) op t tl B0 H15 Hr ltac:(intros I; apply Hu; left; exact I) Hn ltac:(intros -> ->; cbn [List.length] in *; lia)) as (name & form & ops & En & _ & Hnm).
    destruct (need_handler x op H15 (t ++ tl)%list) as (u & q & Eh & _); [rewrite app_length; cbn [List.length] in *; lia|].
    cbn [text app]. rewrite En, P0, Eh.
    match goal with |- context [cut ?z] => replace (cut z) with (limited (announced pre ++ name ++ " (" ++ form ++ ")" ++ ops ++ u)) end.
    2:{ match goal with |- limited ?a = cut ?b => change (limited a = limited b) end. f_equal. rewrite <- (lead_app acc), La. change (lead "") with "". rewrite !app_assoc_s. reflexivity. }
    exists w, name, form, (ops ++ u). split; [reflexivity|]. split; [exact Wn|]. apply Hnm.
Qed.
(** F6 /1 and F7 /1 are not executed, whatever the operand. *)
Lemma misc_one_not_ok E o s u s' : o = OMiscMI \/ o = OMiscMIX -> exec1 E o 1 s <> Ok u s'.
Proof.
  intros [-> | ->]; cbn [exec1]; unfold x_misc_mi, x_misc_mix, bind.
  - destruct (parse_modrm E s); discriminate.
  - destruct (parse_modrmx E s) as [rm s2| | |]; discriminate.
Qed.
Lemma grp3_refused E base s pre p bs s1 : quiet_host E -> fetched E base s pre p bs -> wf_state s -> opcode_read bs ->
  (exists op t, bs = op :: t /\ (op = 246 \/ op = 247) /\ reg_field t = 1) -> do_opcode E s <> Ok tt s1.
Proof.
  intros Q Hf Ws Hr (op & t & -> & Hop & Hg). destruct t as [|m t]; [discriminate|]. cbn [reg_field] in Hg.
  pose proof Hf as ([F W PC Hc] & Hp & C).
  assert (Hd : exists o, dispatch (op :: m :: t) = Some (o, 1, 1) /\ (o = OMiscMI \/ o = OMiscMIX)).
  { destruct Hop as [-> | ->]; [exists OMiscMI|exists OMiscMIX]; (split; [|auto]); unfold dispatch; cbn; rewrite Hg; reflexivity. }
  destruct Hd as (o & Hd & Ho). destruct s as [a d g n l]. cbn [ar dc dbg icount lastnull] in *. rewrite do_opcode_eq by exact Hc. unfold bind at 1.
  rewrite (op_loop_exec E base a pre p g (n + 1) l _ o 1 1 F W C Hp Hd).
  set (s0 := mkSt a (dec_of p (blen pre + 1)) g (n + 1) l).
  destruct (exec1 E o 1 s0) as [[] s2|c s2|r|] eqn:Hx; try discriminate.
  - exfalso. exact (misc_one_not_ok E o s0 _ _ Ho Hx).
  - assert (Nc : c <> E_CONTINUE).
    { assert (B0 : byte_memory s0) by (intros x b Hb; exact (ws_bytes _ Ws x b Hb)).
      pose proof (says_exec1 E Q (fun c => c <> E_CONTINUE) ltac:(discriminate) o 1) as K.
      assert (K' : says (fun c => c <> E_CONTINUE) (exec1 E o 1)) by (apply K; destruct Ho as [-> | ->]; discriminate). specialize (K' s0 B0). rewrite Hx in K'. apply K'. }
    replace (c =? E_CONTINUE) with false by lia. discriminate.
Qed.
