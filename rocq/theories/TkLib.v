(** Model of the test kernel's support library: testkern/lib.c, heap.c, debug.c (i586: 32-bit
    pointers, size_t and int; uint64_t arithmetic through __udivdi3 and __umoddi3). *)
From Verif Require Import Base.

(** ** lib.c *)
(** The "speed hack" divisors, lib.c:47-59 and 82-94 (divisor, its logarithm). *)
Definition hacks : list (Z * Z) :=
  [(1, 0); (2, 1); (4, 2); (8, 3); (16, 4); (32, 5); (1024, 10); (2048, 11); (4096, 12);
   (0x2000, 13); (0x4000, 14); (0x8000, 15); (0x10000, 16)].
Fixpoint hack_of (l : list (Z * Z)) (den : Z) : option Z :=
  match l with [] => None | (d, k) :: t => if den =? d then Some k else hack_of t den end.
(** while(Num > Den) { ret ++; Num -= Den; }  lib.c:68-71, 99-100.  [n] bounds the iterations;
    None = not finished.  Returns (ret, Num). *)
Fixpoint sub_loop (n : nat) (num den ret : Z) : option (Z * Z) :=
  if num <=? den then Some (ret, num)
  else match n with
       | O => None
       | S n' => sub_loop n' (num - den) den (wrap 64 (ret + 1))
       end.
(** __udivdi3: lib.c:42-73.  Den = 0 raises interrupt 0, which the kernel does not handle: None. *)
Definition udivdi3 (n : nat) (num den : Z) : option Z :=
  if den =? 0 then None else
  match hack_of hacks den with
  | Some k => Some (Z.shiftr num k)
  | None =>
    if (Z.shiftr num 32 =? 0) && (Z.shiftr den 32 =? 0) then Some (wrap 32 num / wrap 32 den)
    else match sub_loop n num den 0 with Some (q, _) => Some q | None => None end
  end.
(** __umoddi3: lib.c:79-102. *)
Definition umoddi3 (n : nat) (num den : Z) : option Z :=
  if den =? 0 then None else
  match hack_of hacks den with
  | Some k => Some (Z.land num (2 ^ k - 1))
  | None =>
    if (Z.shiftr num 32 =? 0) && (Z.shiftr den 32 =? 0) then Some (wrap 32 num mod wrap 32 den)
    else match sub_loop n num den 0 with Some (_, r) => Some r | None => None end
  end.

(** Byte memory of the kernel. *)
Definition kmem := Z -> Z.
Definition kput (m : kmem) (x v : Z) : kmem := fun y => if y =? x then wrap 8 v else m y.
(** Little-endian doubleword access (addresses are 32 bits). *)
Definition kput32 (m : kmem) (x v : Z) : kmem :=
  kput (kput (kput (kput m x v) (wrap 32 (x + 1)) (v / 2 ^ 8)) (wrap 32 (x + 2)) (v / 2 ^ 16)) (wrap 32 (x + 3)) (v / 2 ^ 24).
Definition kget32 (m : kmem) (x : Z) : Z :=
  m x + 2 ^ 8 * m (wrap 32 (x + 1)) + 2 ^ 16 * m (wrap 32 (x + 2)) + 2 ^ 24 * m (wrap 32 (x + 3)).
(** rep stosl / rep stosb with ECX = n, direction flag clear: (memory, EDI). *)
Fixpoint rep_stosl (n : nat) (m : kmem) (edi eax : Z) : kmem * Z :=
  match n with O => (m, edi) | S n' => rep_stosl n' (kput32 m edi eax) (wrap 32 (edi + 4)) eax end.
Fixpoint rep_stosb (n : nat) (m : kmem) (edi eax : Z) : kmem * Z :=
  match n with O => (m, edi) | S n' => rep_stosb n' (kput m edi eax) (wrap 32 (edi + 1)) eax end.
(** rep movsl / rep movsb: (memory, EDI, ESI). *)
Fixpoint rep_movsl (n : nat) (m : kmem) (edi esi : Z) : kmem * Z * Z :=
  match n with O => (m, edi, esi) | S n' => rep_movsl n' (kput32 m edi (kget32 m esi)) (wrap 32 (edi + 4)) (wrap 32 (esi + 4)) end.
Fixpoint rep_movsb (n : nat) (m : kmem) (edi esi : Z) : kmem * Z * Z :=
  match n with O => (m, edi, esi) | S n' => rep_movsb n' (kput m edi (m esi)) (wrap 32 (edi + 1)) (wrap 32 (esi + 1)) end.
(** memset: lib.c:15-23 (the asm statement is taken at face value: the compiler is assumed to keep
    the third operand in a register other than those the string instructions use). *)
Definition k_memset (m : kmem) (dest val num : Z) : kmem :=
  let '(m1, edi) := rep_stosl (Z.to_nat (num / 4)) m dest (wrap 32 val) in
  fst (rep_stosb (Z.to_nat (num mod 4)) m1 edi (wrap 32 val)).
(** memcpy: lib.c:28-36. *)
Definition k_memcpy (m : kmem) (dest src num : Z) : kmem :=
  let '(m1, edi, esi) := rep_movsl (Z.to_nat (num / 4)) m dest src in
  fst (fst (rep_movsb (Z.to_nat (num mod 4)) m1 edi esi)).

(** ** heap.c *)
(** malloc: heap.c:19-26; state and result are gHeapPtr.  ~7 is (size_t)-8. *)
Definition k_malloc (heap bytes : Z) : Z * Z :=
  (heap, wrap 32 (heap + Z.land (wrap 32 (bytes + 7)) 4294967288)).
(** calloc: heap.c:28-33. *)
Definition k_calloc (m : kmem) (heap nmemb size : Z) : Z * Z * kmem :=
  let '(ret, heap') := k_malloc heap (wrap 32 (nmemb * size)) in
  (ret, heap', k_memset m ret 0 (wrap 32 (nmemb * size))).
(** free does nothing (heap.c:35-38). *)
(** A history of malloc calls: the addresses returned. *)
Fixpoint k_mallocs (heap : Z) (sizes : list Z) : list Z :=
  match sizes with [] => [] | n :: t => fst (k_malloc heap n) :: k_mallocs (snd (k_malloc heap n)) t end.

(** ** debug.c *)
(** cHEXCHARS: debug.c:40 (index 16 is the terminating NUL, beyond is out of bounds). *)
Definition hexchars : list Z := [48; 49; 50; 51; 52; 53; 54; 55; 56; 57; 65; 66; 67; 68; 69; 70; 0].
Definition hexchar (i : Z) : option Z := if i <? 0 then None else nth_error hexchars (Z.to_nat i).
(** The do/while loop of itoa, debug.c:50-54: characters in tmp[], least significant first.  None
    = out-of-bounds access (tmp has 65 bytes) or a division that does not finish in [f] steps.
    [n] bounds the iterations. *)
Fixpoint itoa_digits (f n : nat) (val base i : Z) : option (list Z) :=
  match n with
  | O => None
  | S n' =>
    match umoddi3 f val base, udivdi3 f val base with
    | Some r, Some q =>
      match hexchar r with
      | Some c =>
        if 65 <=? i then None else
        if q =? 0 then Some [c]
        else match itoa_digits f n' q base (i + 1) with Some t => Some (c :: t) | None => None end
      | None => None
      end
    | _, _ => None
    end
  end.
(** itoa: debug.c:45-63; the string written to buf[] (which has 65 bytes at every call), without
    the NUL.  The return value is its length. *)
Definition k_itoa (f : nat) (val base minLength pad : Z) : option (list Z) :=
  match itoa_digits f 70 val base 0 with
  | Some t =>
    let len := Z.of_nat (length t) in
    let tmp := t ++ repeat pad (Z.to_nat (minLength - len)) in
    if 65 <=? Z.of_nat (length tmp) then None else Some (rev tmp)
  | None => None
  end.
(** printf: debug.c:90-173.  [fmt] and the strings [str p] are the bytes before the NUL; [args] are
    the 32-bit arguments.  Result: the characters printed (the return value is their number), or
    None when it reads past the end of fmt or of the arguments, or itoa fails.
    The width digits, debug.c:121-125 ([int] overflow is not modelled: the width is bounded by itoa). *)
Fixpoint take_width (acc : Z) (fmt : list Z) : Z * list Z :=
  match fmt with
  | c :: t => if (48 <=? c) && (c <=? 57) then take_width (acc * 10 + (c - 48)) t else (acc, fmt)
  | [] => (acc, [])
  end.
Definition opt_app (o : option (list Z)) (r : option (list Z)) : option (list Z) :=
  match o, r with Some a, Some b => Some (a ++ b) | _, _ => None end.
Fixpoint k_printf (f n : nat) (str : Z -> list Z) (fmt : list Z) (args : list Z) : option (list Z) :=
  match n with
  | O => None
  | S n' =>
    match fmt with
    | [] => Some []
    | c :: t =>
      if negb (c =? 37) then opt_app (Some [c]) (k_printf f n' str t args)
      else
        let '(pad, t1) := match t with 48 :: t' => (48, t') | _ => (32, t) end in
        let '(minLen, t2) := match t1 with
                             | d :: _ => if (49 <=? d) && (d <=? 57) then take_width 0 t1 else (0, t1)
                             | [] => (0, t1) end in
        match args with
        | [] => None
        | v :: args' =>
          match t2 with
          | [] => None                                   (* steps over the NUL *)
          | d :: t3 =>
            let rest := k_printf f n' str t3 args' in
            if d =? 111 then opt_app (k_itoa f v 8 minLen pad) rest
            else if d =? 105 then opt_app (k_itoa f v 10 minLen pad) rest
            else if d =? 120 then opt_app (k_itoa f v 16 minLen pad) rest
            else if d =? 112 then opt_app (Some [42; 48; 120]) (opt_app (k_itoa f v 16 8 48) rest)
            else if d =? 115 then opt_app (Some (if v =? 0 then [40; 110; 117; 108; 108; 41] else str v)) rest
            else rest
          end
        end
    end
  end.

(** ** main.c *)
(** The memory map the test kernel installs, main.c:25-36: block 0 is a heap copy of page 0, blocks
    1-255 are host memory itself, blocks 256-271 stay NULL. *)
Definition tk_map (lowCache : Z) (b : Z) : Z :=
  if b =? 0 then lowCache else if b <? 256 then b * 4096 else 0.
