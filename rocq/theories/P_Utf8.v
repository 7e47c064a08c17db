(** Lemmas: the model's UTF-8 check accepts exactly the UTF-8 form of texts (for C59). *)
From Coq Require Import NArith ZArith String Ascii List Lia Bool.
From Verif Require Import Base M_Utils S_Utf8.
Import ListNotations.
Local Open Scope N_scope.

Lemma byte_in_N : forall lo hi c,
  byte_in lo hi c = (N.of_nat lo <=? N_of_ascii c) && (N_of_ascii c <=? N.of_nat hi).
Proof.
  intros lo hi c. unfold byte_in, nat_of_ascii.
  destruct (Nat.leb_spec lo (N.to_nat (N_of_ascii c))), (N.leb_spec (N.of_nat lo) (N_of_ascii c)); try lia;
  destruct (Nat.leb_spec (N.to_nat (N_of_ascii c)) hi), (N.leb_spec (N_of_ascii c) (N.of_nat hi)); try lia; reflexivity.
Qed.

Lemma of_bytes_app : forall a b, of_bytes (a ++ b) = (of_bytes a ++ of_bytes b)%string.
Proof. induction a as [|x a IH]; intros b; cbn; [reflexivity|]. now rewrite IH. Qed.

Lemma asc : forall c n, N_of_ascii c = n -> ascii_of_N n = c.
Proof. intros c n <-. apply ascii_N_embedding. Qed.

Lemma byte_in_b : forall lo hi n, n < 256 ->
  byte_in lo hi (ascii_of_N n) = (N.of_nat lo <=? n) && (n <=? N.of_nat hi).
Proof. intros lo hi n H. now rewrite byte_in_N, N_ascii_embedding. Qed.

Ltac decide_leb := repeat match goal with
  | |- context[(?a <=? ?b)%N] => destruct (N.leb_spec a b); try lia
  | |- context[(?a <? ?b)%N] => destruct (N.ltb_spec a b); try lia
  end.

(** the digits of a number in base 64 *)
Lemma digits : forall n, exists a b c d, n / 262144 = a /\ (n / 4096) mod 64 = b /\ (n / 64) mod 64 = c /\ n mod 64 = d /\
  n / 4096 = 64 * a + b /\ n / 64 = 4096 * a + 64 * b + c /\
  n = 262144 * a + 4096 * b + 64 * c + d /\ b < 64 /\ c < 64 /\ d < 64.
Proof.
  intros n. exists (n / 262144), ((n / 4096) mod 64), ((n / 64) mod 64), (n mod 64).
  pose proof (N.div_mod' n 64) as A. pose proof (N.div_mod' (n / 64) 64) as B. pose proof (N.div_mod' (n / 64 / 64) 64) as C.
  rewrite !N.div_div in * by lia.
  change (64 * 64) with 4096 in *. change (4096 * 64) with 262144 in *.
  pose proof (N.mod_lt n 64). pose proof (N.mod_lt (n / 64) 64). pose proof (N.mod_lt (n / 4096) 64).
  repeat split; lia.
Qed.

Lemma byte_yes : forall lo hi n, N.of_nat lo <= n -> n <= N.of_nat hi -> n < 256 -> byte_in lo hi (ascii_of_N n) = true.
Proof. intros lo hi n A B C. rewrite byte_in_b by exact C. apply andb_true_iff. split; now apply N.leb_le. Qed.
Lemma byte_no : forall lo hi n, n < N.of_nat lo \/ N.of_nat hi < n -> n < 256 -> byte_in lo hi (ascii_of_N n) = false.
Proof. intros lo hi n A C. rewrite byte_in_b by exact C. apply andb_false_iff. destruct A; [left|right]; now apply N.leb_gt. Qed.

Lemma utf8_one : forall n s, scalar_value n ->
  utf8_valid (of_bytes (utf8_bytes n) ++ s)%string = utf8_valid s.
Proof.
  intros n s H. unfold scalar_value in H. unfold utf8_bytes.
  destruct (digits n) as (a & b & c & d & -> & -> & -> & -> & E4 & E1 & E & Hb & Hc & Hd).
  rewrite E4, E1. clear E4 E1.
  destruct (N.ltb_spec n 0x80) as [A|A].
  { cbn [of_bytes fold_right append utf8_valid]. rewrite byte_yes by lia. reflexivity. }
  destruct (N.ltb_spec n 0x800) as [B|B].
  { assert (a = 0) by lia. assert (b = 0) by lia. subst a b.
    cbn [of_bytes fold_right append utf8_valid].
    rewrite (byte_no 0 127) by lia. rewrite (byte_yes 194 223) by lia. rewrite byte_yes by lia. reflexivity. }
  destruct (N.ltb_spec n 0x10000) as [C|C].
  { assert (a = 0) by lia. subst a. replace (64 * 0 + b) with b by lia.
    cbn [of_bytes fold_right append utf8_valid].
    rewrite (byte_no 0 127) by lia. rewrite (byte_no 194 223) by lia. rewrite (byte_yes 224 239) by lia.
    rewrite (byte_yes 128 191 (128 + d)) by lia.
    assert (b = 0 \/ b = 13 \/ (b <> 0 /\ b <> 13)) as [X|[X|[X Y]]] by lia.
    - rewrite (byte_yes 224 224) by lia. rewrite (byte_yes 160 191) by lia. reflexivity.
    - rewrite (byte_no 224 224) by lia. rewrite (byte_yes 237 237) by lia. rewrite (byte_yes 128 159) by lia. reflexivity.
    - rewrite (byte_no 224 224) by lia. rewrite (byte_no 237 237) by lia. rewrite (byte_yes 128 191) by lia. reflexivity. }
  assert (a <= 4) by lia.
  cbn [of_bytes fold_right append utf8_valid].
  rewrite (byte_no 0 127) by lia. rewrite (byte_no 194 223) by lia. rewrite (byte_no 224 239) by lia.
  rewrite (byte_yes 240 244) by lia. rewrite (byte_yes 128 191 (128 + d)) by lia. rewrite (byte_yes 128 191 (128 + c)) by lia.
  assert (a = 0 \/ a = 4 \/ (a <> 0 /\ a <> 4)) as [X|[X|[X Y]]] by lia.
  - rewrite (byte_yes 240 240) by lia. rewrite (byte_yes 144 191) by lia. reflexivity.
  - rewrite (byte_no 240 240) by lia. rewrite (byte_yes 244 244) by lia. rewrite (byte_yes 128 143) by lia. reflexivity.
  - rewrite (byte_no 240 240) by lia. rewrite (byte_no 244 244) by lia. rewrite (byte_yes 128 191) by lia. reflexivity.
Qed.

Lemma utf8_complete : forall l, Forall scalar_value l -> utf8_valid (of_bytes (concat (map utf8_bytes l))) = true.
Proof.
  induction 1 as [|n l Hn _ IH]; [reflexivity|]. cbn [map concat]. rewrite of_bytes_app, utf8_one; assumption.
Qed.

(** a code point from its digits *)
Lemma bytes_of_digits : forall a b c d, b < 64 -> c < 64 -> d < 64 ->
  let n := 262144 * a + 4096 * b + 64 * c + d in
  n / 262144 = a /\ (n / 4096) mod 64 = b /\ (n / 64) mod 64 = c /\ n mod 64 = d /\
  n / 4096 = 64 * a + b /\ n / 64 = 4096 * a + 64 * b + c.
Proof.
  intros a b c d Hb Hc Hd n.
  assert (Q1 : n / 64 = 4096 * a + 64 * b + c) by (symmetry; apply (N.div_unique _ _ _ d); subst n; lia).
  assert (Q2 : n / 4096 = 64 * a + b) by (symmetry; apply (N.div_unique _ _ _ (64 * c + d)); subst n; lia).
  assert (Q3 : n / 262144 = a) by (symmetry; apply (N.div_unique _ _ _ (4096 * b + 64 * c + d)); subst n; lia).
  rewrite Q1, Q2. repeat split; try assumption; symmetry.
  - apply (N.mod_unique _ _ a); lia.
  - apply (N.mod_unique _ _ (64 * a + b)); lia.
  - apply (N.mod_unique _ _ (4096 * a + 64 * b + c)); subst n; lia.
Qed.

Lemma one_more : forall n s r, scalar_value n -> s = of_bytes (utf8_bytes n) -> utf8_text r -> utf8_text (s ++ r).
Proof.
  intros n s r Hn -> (l & Hl & ->). exists (n :: l). split; [now constructor|].
  cbn [map concat]. now rewrite of_bytes_app.
Qed.

Lemma in_range : forall lo hi c, byte_in lo hi c = true -> N.of_nat lo <= N_of_ascii c <= N.of_nat hi.
Proof.
  intros lo hi c. rewrite byte_in_N. intros H. apply andb_true_iff in H. destruct H as [A B].
  split; now apply N.leb_le.
Qed.
Lemma out_range : forall lo hi c, byte_in lo hi c = false -> N_of_ascii c < N.of_nat lo \/ N.of_nat hi < N_of_ascii c.
Proof.
  intros lo hi c. rewrite byte_in_N. intros H. apply andb_false_iff in H. destruct H as [A|A]; apply N.leb_gt in A; auto.
Qed.

Lemma utf8_sound_len : forall k s, (String.length s <= k)%nat -> utf8_valid s = true -> utf8_text s.
Proof.
  induction k as [|k IH]; intros s L V.
  { destruct s; [|cbn in L; lia]. exists []. split; [constructor|reflexivity]. }
  destruct s as [|c t]; [exists []; split; [constructor|reflexivity]|].
  cbn [utf8_valid] in V. cbn [String.length] in L.
  destruct (byte_in 0 127 c) eqn:B0.
  { apply in_range in B0. apply (one_more (N_of_ascii c) (String c EmptyString) t).
    - left. lia.
    - unfold utf8_bytes. destruct (N.ltb_spec (N_of_ascii c) 0x80); [|lia].
      cbn [of_bytes fold_right]. now rewrite ascii_N_embedding.
    - apply IH; [lia|exact V]. }
  apply out_range in B0.
  destruct (byte_in 194 223 c) eqn:B1.
  { apply in_range in B1. destruct t as [|c1 t1]; [discriminate V|]. apply andb_true_iff in V. destruct V as [V1 V].
    apply in_range in V1. cbn [String.length] in L.
    assert (exists x, N_of_ascii c = 0xC0 + x) as [x Ex] by (exists (N_of_ascii c - 0xC0); lia). assert (exists d, N_of_ascii c1 = 0x80 + d) as [d Ed] by (exists (N_of_ascii c1 - 0x80); lia).
    destruct (bytes_of_digits 0 0 x d) as (_ & _ & _ & D & _ & C); [lia..|].
    replace (262144 * 0 + 4096 * 0 + 64 * x + d) with (64 * x + d) in * by lia.
    replace (4096 * 0 + 64 * 0 + x) with x in * by lia.
    apply (one_more (64 * x + d) (String c (String c1 EmptyString)) t1).
    - left. lia.
    - unfold utf8_bytes. destruct (N.ltb_spec (64 * x + d) 0x80); [lia|]. destruct (N.ltb_spec (64 * x + d) 0x800); [|lia].
      rewrite C, D. cbn [of_bytes fold_right]. rewrite (asc c) by lia. rewrite (asc c1) by lia. reflexivity.
    - apply IH; [lia|exact V]. }
  apply out_range in B1.
  destruct (byte_in 224 239 c) eqn:B2.
  { apply in_range in B2. destruct t as [|c1 [|c2 t2]]; [discriminate V..|].
    apply andb_true_iff in V. destruct V as [V V3]. apply andb_true_iff in V. destruct V as [V1 V2].
    apply in_range in V2. cbn [String.length] in L.
    assert (exists x, N_of_ascii c = 0xE0 + x) as [x Ex] by (exists (N_of_ascii c - 0xE0); lia). assert (exists d, N_of_ascii c2 = 0x80 + d) as [d Ed] by (exists (N_of_ascii c2 - 0x80); lia).
    assert (R : 128 <= N_of_ascii c1 <= 191 /\ (x = 0 -> 160 <= N_of_ascii c1) /\ (x = 13 -> N_of_ascii c1 < 160)).
    { destruct (byte_in 224 224 c) eqn:Q1; [apply in_range in Q1; apply in_range in V1; lia|].
      apply out_range in Q1.
      destruct (byte_in 237 237 c) eqn:Q2; [apply in_range in Q2; apply in_range in V1; lia|].
      apply out_range in Q2. apply in_range in V1. lia. }
    destruct R as (R1 & R2 & R3).
    assert (exists y, N_of_ascii c1 = 0x80 + y) as [y Ey] by (exists (N_of_ascii c1 - 0x80); lia).
    assert (S2 : x = 0 -> 32 <= y) by lia. assert (S3 : x = 13 -> y < 32) by lia. clear R2 R3. rename S2 into R2, S3 into R3.
    destruct (bytes_of_digits 0 x y d) as (_ & _ & M & D & Q & _); [lia..|].
    replace (262144 * 0 + 4096 * x + 64 * y + d) with (4096 * x + 64 * y + d) in * by lia.
    replace (64 * 0 + x) with x in * by lia.
    apply (one_more (4096 * x + 64 * y + d) (String c (String c1 (String c2 EmptyString))) t2).
    - unfold scalar_value. assert (x < 16) by lia. assert (y < 64) by lia. assert (d < 64) by lia. clear - R2 R3 H H0 H1. lia.
    - unfold utf8_bytes. destruct (N.ltb_spec (4096 * x + 64 * y + d) 0x80); [lia|]. destruct (N.ltb_spec (4096 * x + 64 * y + d) 0x800); [lia|].
      destruct (N.ltb_spec (4096 * x + 64 * y + d) 0x10000); [|lia].
      rewrite Q, M, D. cbn [of_bytes fold_right]. rewrite (asc c) by lia. rewrite (asc c1) by lia. rewrite (asc c2) by lia. reflexivity.
    - apply IH; [lia|exact V3]. }
  apply out_range in B2.
  destruct (byte_in 240 244 c) eqn:B3; [|discriminate V].
  apply in_range in B3. destruct t as [|c1 [|c2 [|c3 t3]]]; [discriminate V..|].
  apply andb_true_iff in V. destruct V as [V V4]. apply andb_true_iff in V. destruct V as [V V3]. apply andb_true_iff in V. destruct V as [V1 V2].
  apply in_range in V2. apply in_range in V3. cbn [String.length] in L.
  assert (exists x, N_of_ascii c = 0xF0 + x) as [x Ex] by (exists (N_of_ascii c - 0xF0); lia). assert (exists z, N_of_ascii c2 = 0x80 + z) as [z Ez] by (exists (N_of_ascii c2 - 0x80); lia). assert (exists d, N_of_ascii c3 = 0x80 + d) as [d Ed] by (exists (N_of_ascii c3 - 0x80); lia).
  assert (R : 128 <= N_of_ascii c1 <= 191 /\ (x = 0 -> 144 <= N_of_ascii c1) /\ (x = 4 -> N_of_ascii c1 < 144)).
  { destruct (byte_in 240 240 c) eqn:Q1; [apply in_range in Q1; apply in_range in V1; lia|].
    apply out_range in Q1.
    destruct (byte_in 244 244 c) eqn:Q2; [apply in_range in Q2; apply in_range in V1; lia|].
    apply out_range in Q2. apply in_range in V1. lia. }
  destruct R as (R1 & R2 & R3).
  assert (exists y, N_of_ascii c1 = 0x80 + y) as [y Ey] by (exists (N_of_ascii c1 - 0x80); lia).
  assert (S2 : x = 0 -> 16 <= y) by lia. assert (S3 : x = 4 -> y < 16) by lia. clear R2 R3. rename S2 into R2, S3 into R3.
  destruct (bytes_of_digits x y z d) as (A & B & C & D & _ & _); [lia..|].
  set (n := 262144 * x + 4096 * y + 64 * z + d) in *.
  apply (one_more n (String c (String c1 (String c2 (String c3 EmptyString)))) t3).
  - right. assert (x <= 4) by lia. assert (y < 64) by lia. assert (z < 64) by lia. assert (d < 64) by lia. subst n. clear - R2 R3 H H0 H1 H2. lia.
  - assert (0x10000 <= n) by (clear - R2; subst n; lia).
    unfold utf8_bytes. destruct (N.ltb_spec n 0x80); [lia|]. destruct (N.ltb_spec n 0x800); [lia|].
    destruct (N.ltb_spec n 0x10000); [lia|].
    rewrite A, B, C, D. clearbody n. cbn [of_bytes fold_right]. rewrite (asc c) by lia. rewrite (asc c1) by lia. rewrite (asc c2) by lia. rewrite (asc c3) by lia. reflexivity.
  - apply IH; [lia|exact V4].
Qed.

Lemma utf8_iff : forall s, utf8_valid s = true <-> utf8_text s.
Proof.
  intros s. split.
  - apply (utf8_sound_len (String.length s)). lia.
  - intros (l & Hl & ->). now apply utf8_complete.
Qed.

Lemma convert2str_bytes : forall s,
  (utf8_text s <-> convert2str (TBytes s) = Ok (TStr s)) /\
  (~ utf8_text s <-> convert2str (TBytes s) = Err UnicodeDecodeError).
Proof.
  intros s. pose proof (utf8_iff s) as H. unfold convert2str. cbn [bytes2string decode]. unfold decode.
  destruct (utf8_valid s); cbn; split; split; intros A; try reflexivity; try discriminate A.
  - now apply H.
  - exfalso. apply A, H. reflexivity.
  - apply H in A. discriminate A.
  - intros B. apply H in B. discriminate B.
Qed.
