(** Byte strings, bounds-checked memory access and machine integers.

    Nothing here is specific to lightway-core: these are the C primitives the
    code in /repo/src/he uses (array access, memcpy, memset, strncpy, strnlen,
    ntohs/htons and host-order loads).  Every access is bounds-checked and an
    access outside the object is the distinct outcome [Ub], never a default
    value. *)
From Coq Require Export ZArith List Bool Lia.
From Coq Require Export ZifyBool.
Export ListNotations.
Global Open Scope Z_scope.
Global Set Implicit Arguments.

(** Undefined behaviour (or a failed [assert], which aborts the process). *)
Inductive ub : Type :=
| UB_read        (* read outside an object *)
| UB_write       (* write outside an object *)
| UB_null        (* NULL dereference *)
| UB_assert      (* failed assert() *)
| UB_stale       (* use of a buffer after the API call it was passed to *)
| UB_fuel.       (* not C: a loop of the model ran out of its fuel *)

Inductive res (A : Type) : Type :=
| Val (a : A)
| Ub (u : ub).
Arguments Val {A} a.
Arguments Ub {A} u.

Definition rbind {A B} (r : res A) (f : A -> res B) : res B :=
  match r with Val a => f a | Ub u => Ub u end.
Notation "'do' x <- r ; k" := (rbind r (fun x => k))
  (at level 200, x pattern, r at level 100, k at level 200, right associativity).

Definition bytes := list Z.
Definition len (l : bytes) : Z := Z.of_nat (length l).
Definition byte_ok (b : Z) : Prop := 0 <= b < 256.
Definition bytes_ok (l : bytes) : Prop := Forall byte_ok l.

(** [uint8_t]/[uint16_t]/... conversions. *)
Definition u8 (x : Z) : Z := x mod 256.
Definition u16 (x : Z) : Z := x mod 65536.
Definition u64 (x : Z) : Z := x mod 18446744073709551616.
Definition u8s (l : bytes) : bytes := map u8 l.

Definition zeros (n : Z) : bytes := repeat 0 (Z.to_nat n).

(** Bytes [off, off+n) of [m], unchecked (for specifications). *)
Definition slice (m : bytes) (off n : Z) : bytes :=
  firstn (Z.to_nat n) (skipn (Z.to_nat off) m).

(** m[off] *)
Definition ld8 (m : bytes) (off : Z) : res Z :=
  if (0 <=? off) && (off <? len m) then Val (nth (Z.to_nat off) m 0) else Ub UB_read.

(** reading n bytes at off (source of a memcpy) *)
Definition ldn (m : bytes) (off n : Z) : res bytes :=
  if (0 <=? off) && (0 <=? n) && (off + n <=? len m)
  then Val (slice m off n) else Ub UB_read.

(** writing the bytes [src] at off (destination of a memcpy) *)
Definition stn (m : bytes) (off : Z) (src : bytes) : res bytes :=
  if (0 <=? off) && (off + len src <=? len m)
  then Val (firstn (Z.to_nat off) m ++ src ++ skipn (Z.to_nat (off + len src)) m)
  else Ub UB_write.

Definition st8 (m : bytes) (off v : Z) : res bytes := stn m off [u8 v].

(** Host byte order: [le = true] is a little-endian host. *)
Definition host16 (le : bool) (b0 b1 : Z) : Z :=
  if le then b0 + 256 * b1 else 256 * b0 + b1.
Definition bytes16 (le : bool) (v : Z) : bytes :=
  if le then [v mod 256; (v / 256) mod 256] else [(v / 256) mod 256; v mod 256].
Definition swap16 (v : Z) : Z := (v mod 256) * 256 + v / 256.
Definition ntohs (le : bool) (v : Z) : Z := if le then swap16 v else v.
Definition htons (le : bool) (v : Z) : Z := ntohs le v.

(** a uint16_t member of a packed struct, read/written in host order *)
Definition ldh16 (le : bool) (m : bytes) (off : Z) : res Z :=
  do b <- ldn m off 2;
  Val (host16 le (nth 0 b 0) (nth 1 b 0)).
Definition sth16 (le : bool) (m : bytes) (off v : Z) : res bytes :=
  stn m off (bytes16 le v).

(** uint64_t in host order *)
Fixpoint le_val (l : bytes) : Z :=
  match l with [] => 0 | b :: t => b + 256 * le_val t end.
Fixpoint le_bytes (n : nat) (v : Z) : bytes :=
  match n with O => [] | S k => (v mod 256) :: le_bytes k (v / 256) end.
Definition host64 (le : bool) (l : bytes) : Z := if le then le_val l else le_val (rev l).
Definition bytes64 (le : bool) (v : Z) : bytes :=
  if le then le_bytes 8 v else rev (le_bytes 8 v).
Definition ldh64 (le : bool) (m : bytes) (off : Z) : res Z :=
  do b <- ldn m off 8; Val (host64 le b).
Definition sth64 (le : bool) (m : bytes) (off v : Z) : res bytes :=
  stn m off (bytes64 le v).

(** strnlen(s, n) on a buffer: position of the first NUL, at most n.
    Reading past the end of the object before finding a NUL is UB. *)
Fixpoint strnlen_nat (s : bytes) (n : nat) : res Z :=
  match n with
  | O => Val 0
  | S k => match s with
           | [] => Ub UB_read
           | b :: t => if b =? 0 then Val 0 else (do r <- strnlen_nat t k; Val (1 + r))
           end
  end.
Definition strnlen (s : bytes) (n : Z) : res Z := strnlen_nat s (Z.to_nat n).

(** The C string at the start of a buffer: the bytes before the first NUL. *)
Fixpoint cstr (s : bytes) : bytes :=
  match s with
  | [] => []
  | b :: t => if b =? 0 then [] else b :: cstr t
  end.

(** strncpy(dst, src, n): copies up to n bytes of src, stops at NUL and pads
    with NULs up to n.  Result: the n bytes written. *)
Fixpoint strncpy_nat (s : bytes) (n : nat) : res bytes :=
  match n with
  | O => Val []
  | S k => match s with
           | [] => Ub UB_read
           | b :: t => if b =? 0 then Val (repeat 0 (S k))
                       else (do r <- strncpy_nat t k; Val (b :: r))
           end
  end.
Definition strncpy (dst : bytes) (src : bytes) (n : Z) : res bytes :=
  do w <- strncpy_nat src (Z.to_nat n); stn dst 0 w.

(** ** Lemmas *)

Lemma len_nonneg l : 0 <= len l.
Proof. unfold len; lia. Qed.
#[global] Hint Resolve len_nonneg : core.

Lemma len_nil : len [] = 0. Proof. reflexivity. Qed.
Lemma len_cons a l : len (a :: l) = 1 + len l.
Proof. unfold len; cbn [length]; lia. Qed.
Lemma len_app a b : len (a ++ b) = len a + len b.
Proof. unfold len; rewrite app_length; lia. Qed.
Lemma len_zeros n : 0 <= n -> len (zeros n) = n.
Proof. intros; unfold len, zeros; rewrite repeat_length; lia. Qed.
Lemma len_firstn n l : len (firstn n l) = Z.min (Z.of_nat n) (len l).
Proof. unfold len; rewrite firstn_length; lia. Qed.
Lemma len_skipn n l : len (skipn n l) = Z.max 0 (len l - Z.of_nat n).
Proof. unfold len; rewrite skipn_length; lia. Qed.
Lemma len_slice m off n :
  0 <= off -> 0 <= n -> off + n <= len m -> len (slice m off n) = n.
Proof. intros; unfold slice; rewrite len_firstn, len_skipn; lia. Qed.
Lemma len_map f l : len (map f l) = len l.
Proof. unfold len; now rewrite map_length. Qed.
Lemma len_rev (l : bytes) : len (rev l) = len l.
Proof. unfold len; now rewrite rev_length. Qed.
Lemma len_u8s l : len (u8s l) = len l.
Proof. apply len_map. Qed.

Lemma bytes_ok_u8s l : bytes_ok (u8s l).
Proof.
  unfold bytes_ok, u8s; apply Forall_map; apply Forall_forall; intros x _.
  unfold byte_ok, u8; apply Z.mod_pos_bound; lia.
Qed.
Lemma bytes_ok_app a b : bytes_ok a -> bytes_ok b -> bytes_ok (a ++ b).
Proof. intros; apply Forall_app; auto. Qed.
Lemma bytes_ok_firstn n l : bytes_ok l -> bytes_ok (firstn n l).
Proof. revert n; induction l as [|x l IH]; intros [|n] H; simpl; try constructor;
       inversion H; subst; auto. apply IH; auto. Qed.
Lemma bytes_ok_skipn n l : bytes_ok l -> bytes_ok (skipn n l).
Proof. revert n; induction l as [|x l IH]; intros [|n] H; simpl; auto.
       inversion H; subst; apply IH; auto. Qed.
Lemma bytes_ok_slice m off n : bytes_ok m -> bytes_ok (slice m off n).
Proof. intros; apply bytes_ok_firstn, bytes_ok_skipn; auto. Qed.
Lemma bytes_ok_zeros n : bytes_ok (zeros n).
Proof. apply Forall_forall; intros x Hx; apply repeat_spec in Hx; subst;
       unfold byte_ok; lia. Qed.
Lemma u8s_id l : bytes_ok l -> u8s l = l.
Proof.
  induction 1 as [|x l Hx _ IH]; simpl; auto. unfold u8s in IH.
  f_equal; auto. unfold u8; apply Z.mod_small; auto.
Qed.

Lemma bytes_ok_nth m i : bytes_ok m -> byte_ok (nth i m 0).
Proof.
  intros H; destruct (Nat.lt_ge_cases i (length m)) as [L|L].
  - eapply Forall_forall; [exact H|]; apply nth_In; auto.
  - rewrite nth_overflow by lia; unfold byte_ok; lia.
Qed.

Lemma ld8_val m off v :
  ld8 m off = Val v -> 0 <= off < len m /\ v = nth (Z.to_nat off) m 0.
Proof.
  unfold ld8; destruct ((0 <=? off) && (off <? len m)) eqn:E; [|discriminate].
  intros [= <-]; split; auto; lia.
Qed.
Lemma ld8_ok m off : 0 <= off < len m -> ld8 m off = Val (nth (Z.to_nat off) m 0).
Proof.
  intros; unfold ld8; destruct ((0 <=? off) && (off <? len m)) eqn:E; auto; lia.
Qed.
Lemma ldn_ok m off n :
  0 <= off -> 0 <= n -> off + n <= len m -> ldn m off n = Val (slice m off n).
Proof.
  intros; unfold ldn.
  destruct ((0 <=? off) && (0 <=? n) && (off + n <=? len m)) eqn:E; auto; lia.
Qed.
Lemma ldn_val m off n b :
  ldn m off n = Val b ->
  0 <= off /\ 0 <= n /\ off + n <= len m /\ b = slice m off n.
Proof.
  unfold ldn; destruct ((0 <=? off) && (0 <=? n) && (off + n <=? len m)) eqn:E;
    [|discriminate]; intros [= <-]; repeat split; auto; lia.
Qed.
Lemma stn_ok m off src :
  0 <= off -> off + len src <= len m ->
  stn m off src = Val (firstn (Z.to_nat off) m ++ src ++ skipn (Z.to_nat (off + len src)) m).
Proof.
  intros; unfold stn.
  destruct ((0 <=? off) && (off + len src <=? len m)) eqn:E; auto; lia.
Qed.
Lemma stn_len m off src m' : stn m off src = Val m' -> len m' = len m.
Proof.
  unfold stn; destruct ((0 <=? off) && (off + len src <=? len m)) eqn:E; [|discriminate].
  intros [= <-]. pose proof (len_nonneg src).
  rewrite !len_app, len_firstn, len_skipn; lia.
Qed.
Lemma stn_bytes_ok m off src m' :
  stn m off src = Val m' -> bytes_ok m -> bytes_ok src -> bytes_ok m'.
Proof.
  unfold stn; destruct ((0 <=? off) && (off + len src <=? len m)) eqn:E; [|discriminate].
  intros [= <-] Hm Hs.
  apply bytes_ok_app; [apply bytes_ok_firstn; auto|].
  apply bytes_ok_app; auto; apply bytes_ok_skipn; auto.
Qed.

Lemma nth_slice m off n i :
  (i < Z.to_nat n)%nat -> nth i (slice m off n) 0 = nth (Z.to_nat off + i) m 0.
Proof.
  intros Hi; unfold slice.
  revert Hi; generalize (Z.to_nat n) as k; generalize (Z.to_nat off) as o.
  intros o k Hi.
  assert (forall (l : bytes) k i, (i < k)%nat -> nth i (firstn k l) 0 = nth i l 0) as F.
  { induction l as [|x l IH]; intros [|k'] [|j] H; simpl; auto; try lia.
    apply IH; lia. }
  rewrite F by lia. clear.
  revert m; induction o as [|o IH]; intros m; simpl; auto.
  destruct m as [|x m]; simpl; auto. now destruct i.
Qed.

Lemma slice_app_l a b n : n = len a -> slice (a ++ b) 0 n = a.
Proof.
  intros ->; unfold slice, len; rewrite Nat2Z.id; simpl.
  rewrite firstn_app, Nat.sub_diag, firstn_all; simpl; apply app_nil_r.
Qed.
Lemma skipn_app_exact {A} (a b : list A) : skipn (length a) (a ++ b) = b.
Proof. rewrite skipn_app, skipn_all, Nat.sub_diag; reflexivity. Qed.
Lemma firstn_app_exact {A} (a b : list A) : firstn (length a) (a ++ b) = a.
Proof. rewrite firstn_app, firstn_all, Nat.sub_diag; simpl; apply app_nil_r. Qed.

Lemma slice_app_r a b off n :
  off = len a -> slice (a ++ b) off n = firstn (Z.to_nat n) b.
Proof.
  intros ->; unfold slice, len; rewrite Nat2Z.id, skipn_app_exact; reflexivity.
Qed.
Lemma slice_mid a b c off n :
  off = len a -> n = len b -> slice (a ++ b ++ c) off n = b.
Proof.
  intros -> ->; rewrite slice_app_r by reflexivity.
  unfold len; rewrite Nat2Z.id; apply firstn_app_exact.
Qed.
Lemma slice_all m n : n = len m -> slice m 0 n = m.
Proof. intros ->; unfold slice, len; rewrite Nat2Z.id; simpl; apply firstn_all. Qed.

(** Writing over a slot of the same size. *)
Lemma stn_mid a b c off src :
  off = len a -> len src = len b -> stn (a ++ b ++ c) off src = Val (a ++ src ++ c).
Proof.
  intros -> Hs. pose proof (len_nonneg a); pose proof (len_nonneg c).
  rewrite stn_ok; [|auto|rewrite !len_app; lia].
  f_equal. unfold len at 1; rewrite Nat2Z.id, firstn_app_exact. do 2 f_equal.
  rewrite Hs. replace (Z.to_nat (len a + len b)) with (length (a ++ b))
    by (unfold len; rewrite app_length; lia).
  rewrite app_assoc; apply skipn_app_exact.
Qed.

Lemma firstn_zeros k n : 0 <= k <= n -> firstn (Z.to_nat k) (zeros n) = zeros k.
Proof.
  intros H; unfold zeros.
  replace (Z.to_nat n) with (Z.to_nat k + (Z.to_nat n - Z.to_nat k))%nat by lia.
  rewrite repeat_app. set (a := repeat 0 (Z.to_nat k)).
  replace (Z.to_nat k) with (length a) by apply repeat_length.
  apply firstn_app_exact.
Qed.
Lemma skipn_zeros k n : 0 <= k <= n -> skipn (Z.to_nat k) (zeros n) = zeros (n - k).
Proof.
  intros H; unfold zeros.
  replace (Z.to_nat n) with (Z.to_nat k + Z.to_nat (n - k))%nat by lia.
  rewrite repeat_app. set (a := repeat 0 (Z.to_nat k)).
  replace (Z.to_nat k) with (length a) by apply repeat_length.
  apply skipn_app_exact.
Qed.
Lemma zeros_split k n : 0 <= k <= n -> zeros n = zeros k ++ zeros (n - k).
Proof.
  intros H; rewrite <- (firstn_skipn (Z.to_nat k) (zeros n)).
  rewrite firstn_zeros, skipn_zeros by lia; reflexivity.
Qed.
Lemma zeros_0 : zeros 0 = []. Proof. reflexivity. Qed.
Lemma zeros_succ n : 0 < n -> zeros n = 0 :: zeros (n - 1).
Proof.
  intros; unfold zeros. replace (Z.to_nat n) with (S (Z.to_nat (n-1))) by lia. reflexivity.
Qed.

(** 16-bit conversions *)
Lemma len_bytes16 le v : len (bytes16 le v) = 2.
Proof. destruct le; reflexivity. Qed.
Lemma bytes_ok_bytes16 le v : bytes_ok (bytes16 le v).
Proof.
  assert (byte_ok (v mod 256)) by (apply Z.mod_pos_bound; lia).
  assert (byte_ok ((v / 256) mod 256)) by (apply Z.mod_pos_bound; lia).
  destruct le; repeat constructor; auto; unfold byte_ok in *; lia.
Qed.
Ltac divmod := Z.div_mod_to_equations.

Lemma host16_bytes16 le v :
  0 <= v < 65536 -> host16 le (nth 0 (bytes16 le v) 0) (nth 1 (bytes16 le v) 0) = v.
Proof. destruct le; cbn [bytes16 host16 nth]; intros; divmod; lia. Qed.
Lemma host16_range le a b : byte_ok a -> byte_ok b -> 0 <= host16 le a b < 65536.
Proof. unfold byte_ok; destruct le; cbn [host16]; lia. Qed.
Lemma ntohs_range le v : 0 <= v < 65536 -> 0 <= ntohs le v < 65536.
Proof. destruct le; cbn [ntohs]; unfold swap16; intros; divmod; lia. Qed.
Lemma ntohs_htons le v : 0 <= v < 65536 -> ntohs le (htons le v) = v.
Proof. destruct le; unfold htons, ntohs, swap16; intros; divmod; lia. Qed.

(** A host-order load followed by [ntohs] is the big-endian value, and storing
    [htons v] writes big-endian, whatever the host. *)
Lemma ntohs_host16 le a b :
  byte_ok a -> byte_ok b -> ntohs le (host16 le a b) = 256 * a + b.
Proof.
  unfold byte_ok; destruct le; cbn [ntohs host16]; unfold swap16; intros; divmod; lia.
Qed.
Lemma bytes16_htons le v :
  0 <= v < 65536 -> bytes16 le (htons le v) = [v / 256; v mod 256].
Proof.
  destruct le; unfold htons, ntohs, swap16; cbn [bytes16]; intros;
    repeat (f_equal; try (divmod; lia)).
Qed.
Lemma host16_inj le a b c d :
  byte_ok a -> byte_ok b -> byte_ok c -> byte_ok d ->
  host16 le a b = host16 le c d -> a = c /\ b = d.
Proof. unfold byte_ok; destruct le; cbn [host16]; lia. Qed.

Lemma ldh16_ok le m off :
  0 <= off -> off + 2 <= len m ->
  ldh16 le m off = Val (host16 le (nth (Z.to_nat off) m 0) (nth (Z.to_nat off + 1) m 0)).
Proof.
  intros; unfold ldh16; rewrite ldn_ok by lia; cbn [rbind].
  rewrite !nth_slice by lia. now rewrite Nat.add_0_r.
Qed.

(** 64-bit conversions *)
Lemma le_val_bytes n v : 0 <= v < 256 ^ Z.of_nat n -> le_val (le_bytes n v) = v.
Proof.
  revert v; induction n as [|n IH]; intros v H.
  - simpl in *; lia.
  - cbn [le_bytes le_val]. rewrite IH.
    + divmod; lia.
    + replace (Z.of_nat (S n)) with (Z.of_nat n + 1) in H by lia.
      rewrite Z.pow_add_r in H by lia. divmod; nia.
Qed.
Lemma length_le_bytes n v : length (le_bytes n v) = n.
Proof. revert v; induction n; intros; simpl; auto. Qed.
Lemma len_bytes64 le v : len (bytes64 le v) = 8.
Proof. unfold len, bytes64; destruct le; rewrite ?rev_length, length_le_bytes; reflexivity. Qed.
Lemma bytes_ok_le_bytes n v : bytes_ok (le_bytes n v).
Proof.
  revert v; induction n as [|n IH]; intros; simpl; constructor; [|apply IH].
  apply Z.mod_pos_bound; lia.
Qed.
Lemma bytes_ok_rev l : bytes_ok l -> bytes_ok (rev l).
Proof. apply Forall_rev. Qed.
Lemma bytes_ok_bytes64 le v : bytes_ok (bytes64 le v).
Proof. unfold bytes64; destruct le; [|apply bytes_ok_rev]; apply bytes_ok_le_bytes. Qed.
Lemma host64_bytes64 le v : 0 <= v < 18446744073709551616 -> host64 le (bytes64 le v) = v.
Proof.
  intros H; unfold host64, bytes64; destruct le; rewrite ?rev_involutive;
    apply le_val_bytes; simpl; lia.
Qed.
Lemma le_val_range l : bytes_ok l -> 0 <= le_val l < 256 ^ len l.
Proof.
  induction 1 as [|x l Hx _ IH]; [simpl; unfold len; simpl; lia|].
  rewrite len_cons, Z.pow_add_r by (auto; lia). cbn [le_val]. unfold byte_ok in Hx.
  change (256 ^ 1) with 256. lia.
Qed.
Lemma host64_range le l : bytes_ok l -> len l = 8 -> 0 <= host64 le l < 18446744073709551616.
Proof.
  intros H L; unfold host64; destruct le.
  - pose proof (le_val_range H); rewrite L in *; simpl in *; lia.
  - pose proof (le_val_range (bytes_ok_rev H)); rewrite len_rev, L in *; simpl in *; lia.
Qed.

(** C strings *)
Lemma strnlen_nat_cstr s n :
  (length (cstr s) < length s)%nat \/ (n <= length s)%nat ->
  strnlen_nat s n = Val (Z.min (len (cstr s)) (Z.of_nat n)).
Proof.
  revert n; induction s as [|b s IH]; intros [|n] H; cbn [strnlen_nat cstr].
  - reflexivity.
  - simpl in H; lia.
  - pose proof (len_nonneg (if b =? 0 then [] else b :: cstr s)). f_equal; lia.
  - cbn [cstr length] in H.
    destruct (b =? 0) eqn:E; [rewrite len_nil; f_equal; lia|].
    cbn [length] in H.
    rewrite IH by (destruct H; [left|right]; lia).
    cbn [rbind]. rewrite len_cons. f_equal; lia.
Qed.

Lemma strncpy_nat_cstr s n :
  (length (cstr s) < length s)%nat \/ (n <= length s)%nat ->
  strncpy_nat s n = Val (firstn n (cstr s) ++ repeat 0 (n - length (cstr s))).
Proof.
  revert n; induction s as [|b s IH]; intros [|n] H; cbn [strncpy_nat cstr].
  - reflexivity.
  - simpl in H; lia.
  - destruct (b =? 0); reflexivity.
  - cbn [cstr length] in H.
    destruct (b =? 0) eqn:E; [reflexivity|].
    cbn [length] in H |- *.
    rewrite IH by (destruct H; [left|right]; lia).
    cbn [rbind firstn]. reflexivity.
Qed.
Lemma strncpy_nat_len s n w : strncpy_nat s n = Val w -> len w = Z.of_nat n.
Proof.
  revert n w; induction s as [|b s IH]; intros [|n] w; cbn [strncpy_nat];
    try discriminate; try (intros [= <-]; reflexivity).
  destruct (b =? 0).
  - intros [= <-]. rewrite len_cons; unfold len; rewrite repeat_length; lia.
  - destruct (strncpy_nat s n) as [r|u] eqn:E; cbn [rbind]; [|discriminate].
    intros [= <-]. apply IH in E. rewrite len_cons; lia.
Qed.
Lemma bytes_ok_repeat0 n : bytes_ok (repeat 0 n).
Proof. apply Forall_forall; intros x Hx; apply repeat_spec in Hx; subst;
       unfold byte_ok; lia. Qed.
Lemma strncpy_nat_bytes_ok s n w : strncpy_nat s n = Val w -> bytes_ok s -> bytes_ok w.
Proof.
  revert n w; induction s as [|b s IH]; intros [|n] w H Hs; cbn [strncpy_nat] in H;
    try discriminate; try (injection H as <-; constructor).
  inversion Hs; subst. destruct (b =? 0).
  - injection H as <-. apply (bytes_ok_repeat0 (S n)).
  - destruct (strncpy_nat s n) as [r|u] eqn:E; cbn [rbind] in H; [|discriminate].
    injection H as <-. constructor; auto. eapply IH; eauto.
Qed.

Definition nonul (l : bytes) : Prop := Forall (fun b => b <> 0) l.
Lemma cstr_nonul l : nonul (cstr l).
Proof.
  induction l as [|b l IH]; simpl; [constructor|].
  destruct (b =? 0) eqn:E; constructor; auto; lia.
Qed.
Lemma cstr_app_nul l r : nonul l -> cstr (l ++ 0 :: r) = l.
Proof. induction 1 as [|b l Hb _ IH]; simpl; auto. destruct (b =? 0) eqn:E; [lia|]. now f_equal. Qed.
Lemma cstr_id l : nonul l -> cstr l = l.
Proof. induction 1 as [|b l Hb _ IH]; simpl; auto. destruct (b =? 0) eqn:E; [lia|]. now f_equal. Qed.
Lemma cstr_zeros l n : nonul l -> cstr (l ++ zeros n) = l.
Proof.
  intros H; unfold zeros; destruct (Z.to_nat n); simpl.
  - rewrite app_nil_r; now apply cstr_id.
  - now apply cstr_app_nul.
Qed.
Lemma nonul_firstn n l : nonul l -> nonul (firstn n l).
Proof. revert n; induction l as [|x l IH]; intros [|n] H; simpl; try constructor;
       inversion H; subst; auto. now apply IH. Qed.
