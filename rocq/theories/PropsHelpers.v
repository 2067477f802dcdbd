(** Properties of the runtime helpers: C01-C07, C46. *)
From Coq Require Import ZArith List Bool Lia.
From Verif Require Import Base BaseFacts Schema Value Helpers Marshal Unmarshal WireSpec RecordSpec
  Typing VarintFacts SimFacts SkipFacts NumFacts HelperFacts.
Import ListNotations.
Open Scope Z_scope.

(** C01.  SizeOfVarint(x) is the least n >= 1 with x < 128^n; it is between 1 and
    10 and is the length of the varint of x, which is what EncodeVarint writes (C02). *)
Theorem C01_SizeOfVarint x : 0 <= x < 18446744073709551616 ->
  1 <= SizeOfVarint x <= 10 /\ x < 128 ^ SizeOfVarint x /\
  (forall n, 1 <= n -> x < 128 ^ n -> SizeOfVarint x <= n) /\
  SizeOfVarint x = zlen (varint x).
Proof.
  intros H. rewrite SizeOfVarint_len by lia.
  pose proof (varint_pos x ltac:(lia)). pose proof (varint_len64 x H).
  split; [lia|]. split; [apply varint_len_least; lia|]. split; [|reflexivity].
  intros n Hn Hx. apply varint_len_least; lia.
Qed.
Print Assumptions C01_SizeOfVarint.
Example C01_nonvacuous : SizeOfVarint 127 = 1 /\ SizeOfVarint 128 = 2 /\ SizeOfVarint 18446744073709551615 = 10.
Proof. repeat split. Qed.

(** C02.  EncodeVarint: exact result for every buffer and offset. *)
Theorem C02_EncodeVarint buf off v : 0 <= v < 18446744073709551616 ->
  EncodeVarint buf off v =
  let n := zlen (varint v) in
  if (n <=? off) && (off <=? zlen buf)
  then Ok (firstn (Z.to_nat (off - n)) buf ++ varint v ++ skipn (Z.to_nat off) buf, off - n)
  else Panic.
Proof. exact (EncodeVarint_exact buf off v). Qed.
Print Assumptions C02_EncodeVarint.
Example C02_nonvacuous : EncodeVarint [9; 9; 9; 9] 3 300 = Ok ([9; 172; 2; 9], 1).
Proof. reflexivity. Qed.
Example C02_nonvacuous_panic : EncodeVarint [9; 9] 1 300 = Panic.
Proof. reflexivity. Qed.

(** The varint is the base-128 little-endian form: its value is v and no shorter
    byte string is a varint of value v. *)
Theorem C02_varint_canonical v : 0 <= v ->
  is_varint (varint v) = true /\ vval (varint v) = v /\
  forall bs, is_varint bs = true -> vval bs = v -> zlen (varint v) <= zlen bs.
Proof.
  intros H. split; [now apply varint_is|]. split; [now apply varint_val|].
  intros bs Hb <-. assert (1 <= zlen bs).
  { apply is_varint_ne in Hb. destruct bs; [contradiction|]. rewrite zlen_cons. pose proof (zlen_nonneg bs). lia. }
  apply varint_len_least; [apply vval_nonneg|assumption|]. clear. induction bs as [|b bs IH]; [reflexivity|].
  rewrite zlen_cons. cbn [vval]. rewrite Z.pow_add_r by (pose proof (zlen_nonneg bs); lia).
  pose proof (Z.mod_pos_bound b 128 ltac:(lia)). change (128 ^ 1) with 128. lia.
Qed.
Print Assumptions C02_varint_canonical.

(** C03.  For every kind encoded as a plain varint (bool, enum and the int/uint
    kinds), decoding the encoding of a value of that type returns the value and
    consumes exactly the encoding, whatever precedes or follows.  [enc_value]
    writes the sign-extended 64-bit value, as the wire format prescribes. *)
Theorem C03_varint_roundtrip sc rec k z p s :
  In k [KInt64; KUint64; KInt32; KUint32; KEnum; KBool] -> in_range k z = true ->
  small (p ++ enc_value sc rec k (VInt z) ++ s) ->
  decodeNumber k 0 (p ++ enc_value sc rec k (VInt z) ++ s) (zlen p)
  = Ok (z, zlen p + zlen (enc_value sc rec k (VInt z))).
Proof.
  intros Hk R Hs. assert (is_num k = true) as N by (cbn in Hk; intuition subst; reflexivity).
  pose proof (num_wire_enc sc rec k z N R) as W.
  apply decodeNumber_ok; auto.
  cbn in Hk. intuition subst; cbn [enc_value]; try (apply varint_bytes; apply Z.mod_pos_bound; lia).
  destruct (vint _ =? 0); reflexivity.
Qed.
Print Assumptions C03_varint_roundtrip.
(** Any other varint of at most 10 bytes is truncated to the type. *)
Theorem C03_varint_any k bs p s : wire_of k = 0 -> is_varint bs = true -> zlen bs <= 10 ->
  small (p ++ bs ++ s) ->
  decodeNumber k 0 (p ++ bs ++ s) (zlen p) = Ok (varint_num k (vval bs), zlen p + zlen bs).
Proof.
  intros W H1 H2 Hs. apply decodeNumber_ok; auto using is_varint_bytes.
  unfold num_wire. rewrite W. auto.
Qed.
Print Assumptions C03_varint_any.
Example C03_nonvacuous :
  decodeNumber KInt32 0 ([7] ++ [255; 255; 255; 255; 255; 255; 255; 255; 255; 1] ++ [8]) 1 = Ok (-1, 11)
  /\ in_range KInt32 (-1) = true
  /\ varint (-1 mod 18446744073709551616) = [255; 255; 255; 255; 255; 255; 255; 255; 255; 1].
Proof. repeat split. Qed.

(** C04.  Zig-zag: the marshal expressions compute 2x / -2x-1, the unmarshal
    expressions invert them, SizeOfZigzag is the length of the varint. *)
Theorem C04_zigzag64 x : -9223372036854775808 <= x < 9223372036854775808 ->
  zigzag64 x = (if x <? 0 then -2 * x - 1 else 2 * x) /\
  unzigzag64 (zigzag64 x) = x /\ SizeOfZigzag (u64 x) = zlen (varint (zigzag64 x)).
Proof.
  intros H. rewrite zigzag64_spec by assumption. split; [reflexivity|].
  pose proof (zz_range x 9223372036854775808 ltac:(lia)).
  split; [rewrite unzigzag64_spec by lia; apply unzz_zz|]. now apply SizeOfZigzag_len.
Qed.
Print Assumptions C04_zigzag64.
Theorem C04_zigzag32 x : -2147483648 <= x < 2147483648 ->
  zigzag32 x = (if x <? 0 then -2 * x - 1 else 2 * x) /\
  unzigzag32 (s32 (zigzag32 x)) = x /\ SizeOfZigzag (u64 x) = zlen (varint (zigzag32 x)).
Proof.
  intros H. rewrite zigzag32_spec by assumption. split; [reflexivity|].
  pose proof (zz_range x 2147483648 ltac:(lia)).
  split; [rewrite unzigzag32_spec, Z.mod_small by lia; apply unzz_zz|].
  apply SizeOfZigzag_len; lia.
Qed.
Print Assumptions C04_zigzag32.
(** A sint field decodes to what was encoded. *)
Theorem C04_sint_roundtrip sc rec k z p s :
  In k [KSint32; KSint64] -> in_range k z = true ->
  small (p ++ enc_value sc rec k (VInt z) ++ s) ->
  decodeNumber k 0 (p ++ enc_value sc rec k (VInt z) ++ s) (zlen p)
  = Ok (z, zlen p + zlen (enc_value sc rec k (VInt z))).
Proof.
  intros Hk R Hs. assert (is_num k = true) as N by (cbn in Hk; intuition subst; reflexivity).
  pose proof (num_wire_enc sc rec k z N R) as W.
  apply decodeNumber_ok; auto.
  cbn in Hk. intuition subst; cbn [enc_value vint]; apply varint_bytes; unfold zz; destruct (z <? 0) eqn:E; lia.
Qed.
Print Assumptions C04_sint_roundtrip.
Example C04_nonvacuous : zigzag64 (-3) = 5 /\ unzigzag64 5 = -3 /\ zigzag32 (-2147483648) = 4294967295
  /\ unzigzag32 (s32 4294967295) = -2147483648 /\ SizeOfZigzag (u64 (-65)) = 2.
Proof. repeat split. Qed.

(** C05.  What Skip delimits is one complete record (groups balanced; that an end
    tag repeats the group's number is not checked, see below). *)
Theorem C05_Skip_sound b n : bytes_ok b = true -> small b -> Skip b = Ok n -> n <= zlen b ->
  exists r s num wt, b = r ++ s /\ n = zlen r /\ record false num wt r.
Proof. exact (Skip_sound b n). Qed.
Print Assumptions C05_Skip_sound.
Example C05_nonvacuous : Skip [35; 8; 1; 36; 255] = Ok 4.
Proof. reflexivity. Qed.
(** The literal reading of C05 (end-group tags repeat the field number) fails:
    Skip accepts start-group 4 closed by end-group 5. *)
Theorem C05_group_number_refuted :
  exists b n, bytes_ok b = true /\ Skip b = Ok n /\ n <= zlen b /\
    forall r s num wt, b = r ++ s -> n = zlen r -> ~ record true num wt r.
Proof.
  exists [35; 44], 2. split; [reflexivity|]. split; [reflexivity|]. split; [cbn; lia|].
  intros r s num wt E L H.
  assert (r = [35; 44]) as ->.
  { destruct r as [|a [|b [|c r]]]; try (unfold zlen in L; cbn in L; lia). now injection E as <- <-. }
  clear E L. remember [35; 44] as bs.
  assert (forall t u : list Z, [35; 44] = t ++ u -> is_varint t = true -> t = [35]) as T.
  { intros t u E V. destruct t as [|a [|b t]]; [discriminate|now injection E as <-|].
    injection E as <- <- E. cbn in V. destruct t; discriminate. }
  destruct H as [num t v Ht|num t v Ht|num t l v Ht|num t body e num' Ht Hb He Hm|num t v Ht]; subst;
    pose proof Ht as (V & _ & _ & _ & Q); pose proof (T t _ (eq_sym Heqbs) V) as ->;
    change (vval [35] mod 18446744073709551616) with 35 in Q; try lia.
  specialize (Hm eq_refl). subst num'. pose proof He as (V' & L' & _ & _ & Q').
  injection Heqbs as Heqbs.
  destruct body as [|x body].
  - cbn in Heqbs. subst e. change (vval [44] mod 18446744073709551616) with 44 in Q'. lia.
  - injection Heqbs as -> Heqbs. apply app_eq_nil in Heqbs as [-> ->]. discriminate.
Qed.
Print Assumptions C05_group_number_refuted.

(** C06.  Skip accepts every complete record and does not look past it. *)
Theorem C06_Skip_complete matching num wt r s : record matching num wt r -> small (r ++ s) ->
  Skip (r ++ s) = Ok (zlen r).
Proof. exact (Skip_complete matching num wt r s). Qed.
Print Assumptions C06_Skip_complete.
Example C06_nonvacuous : record true 4 3 ([35] ++ ([8] ++ [1]) ++ [36]).
Proof.
  assert (forall t n w, is_varint [t] = true -> 0 <= n -> 0 <= w < 8 -> t = n * 8 + w -> t < 128 -> is_tag [t] n w) as T.
  { intros t n w V Hn Hw E B. split; [assumption|]. split; [change (zlen [t]) with 1; lia|]. split; [lia|]. split; [lia|].
    cbn [vval]. rewrite Z.mul_0_r, Z.add_0_r. cbn in V. rewrite (Z.mod_small t 128) by lia. rewrite Z.mod_small; lia. }
  apply (rec_group true 4 [35] ([8] ++ [1]) [36] 4).
  - apply T; auto; lia.
  - rewrite <- (app_nil_r ([8] ++ [1])). apply (recs_cons true 1 0); [|constructor].
    apply rec_varint; [apply T; auto; lia|reflexivity|change (zlen [1]) with 1; lia].
  - apply T; auto; lia.
  - reflexivity.
Qed.

(** C07.  Skip returns a positive length or an error, on every input. *)
Theorem C07_Skip_total b : bytes_ok b = true -> small b ->
  (exists n, Skip b = Ok n /\ 0 < n) \/ exists e, Skip b = Err e tt.
Proof. exact (Skip_total b). Qed.
Print Assumptions C07_Skip_total.
Example C07_nonvacuous : bytes_ok [200; 201] = true /\ small [200; 201] /\ Skip [200; 201] = Err EUnexpectedEOF tt.
Proof. repeat split. Qed.

(** C46.  KeySize is the length of the tag, and the bytes encodeKey emits are the
    tag, for every field number and wire type. *)
Theorem C46_KeySize num wt : 1 <= num < 536870912 -> 0 <= wt < 8 ->
  KeySize num wt = zlen (tag num wt) /\
  forall p q s, zlen q = KeySize num wt ->
    encodeKey num wt (p ++ q ++ s, zlen p + zlen q) = Ok (p ++ tag num wt ++ s, zlen p).
Proof.
  intros Hn Hw. pose proof (KeySize_len num wt) as K.
  split; [apply K; lia|]. intros p q s Hq. rewrite K in Hq by lia.
  exact (proj1 (sim_encodeKey num wt ltac:(lia) ltac:(lia)) p q s Hq).
Qed.
Print Assumptions C46_KeySize.
Example C46_nonvacuous : KeySize 16 2 = 2 /\ tag 16 2 = [130; 1]
  /\ encodeKey 16 2 ([5; 6; 7; 8], 3) = Ok ([5; 130; 1; 8], 1).
Proof. repeat split. Qed.
