(** The standard-library model of Utf8.v meets the Unicode definition of UTF-8. *)
From Coq Require Import ZArith List Bool Lia.
From Coq Require Import ZifyBool.
From Verif Require Import Base Spec Facts Utf8.
Import ListNotations.
Local Open Scope Z_scope.

(** ** Bits *)
Lemma lor_shift a b k : 0 <= k -> 0 <= b < 2 ^ k -> Z.lor (Z.shiftl a k) b = a * 2 ^ k + b.
Proof.
  intros Hk Hb.
  assert (Z.land (Z.shiftl a k) b = 0) as H0.
  { apply Z.bits_inj'. intros i Hi. rewrite Z.land_spec, Z.bits_0.
    destruct (Z_lt_dec i k).
    - rewrite Z.shiftl_spec_low by lia. reflexivity.
    - rewrite <- (Z.mod_small b (2 ^ k)) by lia.
      rewrite Z.mod_pow2_bits_high by lia. apply andb_false_r. }
  rewrite <- Z.shiftl_mul_pow2 by lia.
  rewrite Z.add_nocarry_lxor by exact H0. symmetry. apply Z.lxor_lor. exact H0.
Qed.

Lemma lor_hi hi k b c : 0 <= k -> c = hi * 2 ^ k -> 0 <= b < 2 ^ k -> Z.lor c b = c + b.
Proof.
  intros Hk -> Hb. rewrite <- (lor_shift hi b k Hk Hb).
  rewrite Z.shiftl_mul_pow2 by lia. reflexivity.
Qed.

Lemma land_low a n : 0 <= n -> Z.land a (2 ^ n - 1) = a mod 2 ^ n.
Proof.
  intros Hn. rewrite Z.sub_1_r, <- Z.ones_equiv. apply Z.land_ones. exact Hn.
Qed.
Lemma land_3F a : Z.land a 0x3F = a mod 64. Proof. apply (land_low a 6); lia. Qed.
Lemma land_1F a : Z.land a 0x1F = a mod 32. Proof. apply (land_low a 5); lia. Qed.
Lemma land_0F a : Z.land a 0x0F = a mod 16. Proof. apply (land_low a 4); lia. Qed.
Lemma land_07 a : Z.land a 0x07 = a mod 8. Proof. apply (land_low a 3); lia. Qed.

Lemma lor2 a b : 0 <= b < 64 -> Z.lor (Z.shiftl a 6) b = a * 64 + b.
Proof. intros. apply (lor_shift a b 6); lia. Qed.
Lemma lor3 a b c : 0 <= b < 64 -> 0 <= c < 64 ->
  Z.lor (Z.lor (Z.shiftl a 12) (Z.shiftl b 6)) c = (a * 64 + b) * 64 + c.
Proof.
  intros Hb Hc. change 12 with (6 + 6). rewrite <- Z.shiftl_shiftl by lia.
  rewrite <- Z.shiftl_lor, (lor2 a b) by lia. apply lor2; lia.
Qed.
Lemma lor4 a b c d : 0 <= b < 64 -> 0 <= c < 64 -> 0 <= d < 64 ->
  Z.lor (Z.lor (Z.lor (Z.shiftl a 18) (Z.shiftl b 12)) (Z.shiftl c 6)) d
  = ((a * 64 + b) * 64 + c) * 64 + d.
Proof.
  intros Hb Hc Hd. change 18 with (12 + 6). change 12 with (6 + 6) at 2.
  rewrite <- !Z.shiftl_shiftl by lia.
  rewrite <- !Z.shiftl_lor, (lor3 a b c) by lia. apply lor2; lia.
Qed.

Lemma lor_80 b : 0 <= b < 64 -> Z.lor 0x80 b = 0x80 + b.
Proof. intros. apply (lor_hi 2 6); lia. Qed.
Lemma lor_C0 b : 0 <= b < 32 -> Z.lor 0xC0 b = 0xC0 + b.
Proof. intros. apply (lor_hi 6 5); lia. Qed.
Lemma lor_E0 b : 0 <= b < 16 -> Z.lor 0xE0 b = 0xE0 + b.
Proof. intros. apply (lor_hi 14 4); lia. Qed.
Lemma lor_F0 b : 0 <= b < 8 -> Z.lor 0xF0 b = 0xF0 + b.
Proof. intros. apply (lor_hi 30 3); lia. Qed.

Lemma high_bit_byte b : is_byte b -> (Z.land b 0x80 =? 0) = (b <? 0x80).
Proof.
  unfold is_byte. intros H.
  assert ((Bool.eqb (Z.land b 0x80 =? 0) (b <? 0x80)) = true) as E.
  { apply (sweep (fun b => Bool.eqb (Z.land b 0x80 =? 0) (b <? 0x80)) 0 256); [|lia].
    vm_compute. reflexivity. }
  apply Bool.eqb_prop. exact E.
Qed.

Lemma mod256_64 x : (x mod 0x100) mod 64 = x mod 64.
Proof. Z.div_mod_to_equations. lia. Qed.

(** ** Lead bytes *)
Lemma first_info_spec p0 sz lo hi : first_info p0 = Some (sz, (lo, hi)) ->
  (sz = 2 /\ 0xC2 <= p0 <= 0xDF /\ lo = 0x80 /\ hi = 0xBF) \/
  (sz = 3 /\ 0xE0 <= p0 <= 0xEF /\
   lo = (if p0 =? 0xE0 then 0xA0 else 0x80) /\ hi = (if p0 =? 0xED then 0x9F else 0xBF)) \/
  (sz = 4 /\ 0xF0 <= p0 <= 0xF4 /\
   lo = (if p0 =? 0xF0 then 0x90 else 0x80) /\ hi = (if p0 =? 0xF4 then 0x8F else 0xBF)).
Proof.
  unfold first_info. intros H.
  repeat match type of H with
  | (if ?b then _ else _) = _ => destruct b eqn:?
  end; try discriminate H; injection H as <- <- <-.
  - left. lia.
  - right; left. split; [reflexivity|]. split; [lia|].
    destruct (Z.eqb_spec p0 0xE0), (Z.eqb_spec p0 0xED); lia.
  - right; left. split; [reflexivity|]. split; [lia|].
    destruct (Z.eqb_spec p0 0xE0), (Z.eqb_spec p0 0xED); lia.
  - right; left. split; [reflexivity|]. split; [lia|].
    destruct (Z.eqb_spec p0 0xE0), (Z.eqb_spec p0 0xED); lia.
  - right; left. split; [reflexivity|]. split; [lia|].
    destruct (Z.eqb_spec p0 0xE0), (Z.eqb_spec p0 0xED); lia.
  - right; right. split; [reflexivity|]. split; [lia|].
    destruct (Z.eqb_spec p0 0xF0), (Z.eqb_spec p0 0xF4); lia.
  - right; right. split; [reflexivity|]. split; [lia|].
    destruct (Z.eqb_spec p0 0xF0), (Z.eqb_spec p0 0xF4); lia.
  - right; right. split; [reflexivity|]. split; [lia|].
    destruct (Z.eqb_spec p0 0xF0), (Z.eqb_spec p0 0xF4); lia.
Qed.

Lemma first_info_2 p0 : 0xC2 <= p0 <= 0xDF -> first_info p0 = Some (2, (0x80, 0xBF)).
Proof. intros. unfold first_info. destruct (_ && _) eqn:E; [reflexivity|lia]. Qed.
Lemma first_info_3 p0 : 0xE0 <= p0 <= 0xEF ->
  first_info p0 = Some (3, (if p0 =? 0xE0 then 0xA0 else 0x80, if p0 =? 0xED then 0x9F else 0xBF)).
Proof.
  intros. unfold first_info.
  repeat match goal with |- (if ?b then _ else _) = _ => destruct b eqn:? end;
    repeat f_equal; try lia;
    destruct (Z.eqb_spec p0 0xE0), (Z.eqb_spec p0 0xED); try reflexivity; lia.
Qed.
Lemma first_info_4 p0 : 0xF0 <= p0 <= 0xF4 ->
  first_info p0 = Some (4, (if p0 =? 0xF0 then 0x90 else 0x80, if p0 =? 0xF4 then 0x8F else 0xBF)).
Proof.
  intros. unfold first_info.
  repeat match goal with |- (if ?b then _ else _) = _ => destruct b eqn:? end;
    repeat f_equal; try lia;
    destruct (Z.eqb_spec p0 0xF0), (Z.eqb_spec p0 0xF4); try reflexivity; lia.
Qed.

(** ** utf8_char *)
Lemma utf8_char_cases r : is_scalar r ->
  (0 <= r < 0x80 /\ utf8_char r = [r]) \/
  (0x80 <= r < 0x800 /\ utf8_char r = [0xC0 + r / 64; 0x80 + r mod 64]) \/
  (0x800 <= r < 0x10000 /\ ~ 0xD800 <= r <= 0xDFFF /\
   utf8_char r = [0xE0 + r / 4096; 0x80 + r / 64 mod 64; 0x80 + r mod 64]) \/
  (0x10000 <= r <= 0x10FFFF /\
   utf8_char r = [0xF0 + r / 262144; 0x80 + r / 4096 mod 64; 0x80 + r / 64 mod 64; 0x80 + r mod 64]).
Proof.
  intros [Hr Hs]. unfold utf8_char.
  destruct (Z.ltb_spec r 0x80); [left; split; [lia|reflexivity]|].
  destruct (Z.ltb_spec r 0x800); [right; left; split; [lia|reflexivity]|].
  destruct (Z.ltb_spec r 0x10000); right; right; [left|right];
    repeat split; try lia; reflexivity.
Qed.

Lemma utf8_char_len r : 1 <= zlen (utf8_char r) <= 4.
Proof.
  unfold utf8_char. destruct (r <? 0x80); [cbn; lia|].
  destruct (r <? 0x800); [cbn; lia|]. destruct (r <? 0x10000); cbn; lia.
Qed.

Lemma utf8_char_bytes r : is_scalar r -> Forall is_byte (utf8_char r).
Proof.
  intros H. destruct (utf8_char_cases r H) as [[? ->]|[[? ->]|[[? [? ->]]|[? ->]]]];
    repeat constructor; unfold is_byte; Z.div_mod_to_equations; lia.
Qed.

Lemma utf8_bytes rs : Forall is_scalar rs -> Forall is_byte (utf8 rs).
Proof.
  induction 1 as [|r rs Hr Hrs IH]; cbn [utf8 flat_map]; [constructor|].
  apply Forall_app. split; [apply utf8_char_bytes; exact Hr|exact IH].
Qed.

Lemma utf8_app a b : utf8 (a ++ b) = utf8 a ++ utf8 b.
Proof. unfold utf8. apply flat_map_app. Qed.

Lemma scalar_replacement : is_scalar replacement.
Proof. unfold is_scalar, replacement. lia. Qed.

(** ** EncodeRune *)
Lemma encode3_char r : 0x800 <= r < 0x10000 -> encode3 r = utf8_char r.
Proof.
  intros H. unfold encode3, utf8_char.
  destruct (Z.ltb_spec r 0x80); [lia|]. destruct (Z.ltb_spec r 0x800); [lia|].
  destruct (Z.ltb_spec r 0x10000); [|lia].
  rewrite !Z.shiftr_div_pow2 by lia. rewrite !land_3F. unfold to_u8.
  change (2 ^ 12) with 4096. change (2 ^ 6) with 64.
  rewrite (Z.mod_small (r / 4096) 0x100) by (Z.div_mod_to_equations; lia).
  rewrite lor_E0 by (Z.div_mod_to_equations; lia).
  rewrite !lor_80 by (apply Z.mod_pos_bound; lia).
  rewrite !mod256_64. reflexivity.
Qed.

Lemma EncodeRune_scalar r : is_scalar r -> EncodeRune r = utf8_char r.
Proof.
  intros [Hr Hs]. unfold EncodeRune, to_u32. rewrite Z.mod_small by lia.
  destruct (Z.leb_spec r 0x7F).
  { unfold utf8_char. destruct (Z.ltb_spec r 0x80); [|lia].
    unfold to_u8. rewrite Z.mod_small by lia. reflexivity. }
  destruct (Z.leb_spec r 0x7FF).
  { unfold utf8_char. destruct (Z.ltb_spec r 0x80); [lia|]. destruct (Z.ltb_spec r 0x800); [|lia].
    rewrite !Z.shiftr_div_pow2 by lia. rewrite !land_3F. unfold to_u8.
    change (2 ^ 6) with 64.
    rewrite (Z.mod_small (r / 64) 0x100) by (Z.div_mod_to_equations; lia).
    rewrite lor_C0 by (Z.div_mod_to_equations; lia).
    rewrite !lor_80 by (apply Z.mod_pos_bound; lia).
    rewrite !mod256_64. reflexivity. }
  destruct (_ || _) eqn:E; [lia|].
  destruct (Z.leb_spec r 0xFFFF).
  { apply encode3_char. lia. }
  unfold utf8_char. destruct (Z.ltb_spec r 0x80); [lia|]. destruct (Z.ltb_spec r 0x800); [lia|].
  destruct (Z.ltb_spec r 0x10000); [lia|].
  rewrite !Z.shiftr_div_pow2 by lia. rewrite !land_3F. unfold to_u8.
  change (2 ^ 6) with 64. change (2 ^ 12) with 4096. change (2 ^ 18) with 262144.
  rewrite (Z.mod_small (r / 262144) 0x100) by (Z.div_mod_to_equations; lia).
  rewrite lor_F0 by (Z.div_mod_to_equations; lia).
  rewrite !lor_80 by (apply Z.mod_pos_bound; lia).
  rewrite !mod256_64. reflexivity.
Qed.

Lemma EncodeRune_nonscalar r : is_int32 r -> ~ is_scalar r ->
  EncodeRune r = utf8_char replacement.
Proof.
  intros Hi Hs. unfold is_int32, is_scalar in *. unfold EncodeRune, to_u32.
  assert (r mod 0x100000000 = if r <? 0 then r + 0x100000000 else r) as ->.
  { destruct (Z.ltb_spec r 0).
    - replace r with ((r + 0x100000000) + (-1) * 0x100000000) at 1 by lia.
      rewrite Z.mod_add by lia. apply Z.mod_small. lia.
    - apply Z.mod_small. lia. }
  destruct (Z.ltb_spec r 0).
  - destruct (Z.leb_spec (r + 0x100000000) 0x7F); [lia|].
    destruct (Z.leb_spec (r + 0x100000000) 0x7FF); [lia|].
    destruct (_ || _) eqn:E; [|lia]. reflexivity.
  - destruct (Z.leb_spec r 0x7F); [lia|].
    destruct (Z.leb_spec r 0x7FF); [lia|].
    destruct (_ || _) eqn:E; [|lia]. reflexivity.
Qed.

Lemma EncodeRune_len r : 1 <= zlen (EncodeRune r) <= 4.
Proof.
  unfold EncodeRune. destruct (_ <=? 0x7F); [cbn; lia|].
  destruct (_ <=? 0x7FF); [cbn; lia|]. destruct (_ || _); [cbn; lia|].
  destruct (_ <=? 0xFFFF); cbn; lia.
Qed.

(** ** DecodeRune *)
Lemma in_range_true lo hi b : in_range lo hi b = true <-> lo <= b <= hi.
Proof. unfold in_range. lia. Qed.

Lemma DecodeRune_char r s : is_scalar r ->
  DecodeRune (utf8_char r ++ s) = (r, zlen (utf8_char r)).
Proof.
  intros H. destruct (utf8_char_cases r H) as [[Hr ->]|[[Hr ->]|[[Hr [Hs ->]]|[Hr ->]]]];
    cbn [app].
  - unfold DecodeRune. destruct (Z.ltb_spec r 0x80); [reflexivity|lia].
  - set (p0 := 0xC0 + r / 64). set (b1 := 0x80 + r mod 64).
    assert (0xC2 <= p0 <= 0xDF /\ 0x80 <= b1 <= 0xBF) as [Hp Hb]
      by (subst p0 b1; Z.div_mod_to_equations; lia).
    unfold DecodeRune. destruct (Z.ltb_spec p0 0x80); [lia|].
    rewrite first_info_2 by exact Hp. rewrite !zlen_cons. pose proof (zlen_nonneg s).
    destruct (Z.ltb_spec (1 + (1 + zlen s)) 2); [lia|].
    rewrite (proj2 (in_range_true 0x80 0xBF b1)) by exact Hb. cbn [negb].
    change (2 <=? 2) with true. cbv iota.
    rewrite land_1F, land_3F. rewrite lor2 by (apply Z.mod_pos_bound; lia).
    f_equal. subst p0 b1. Z.div_mod_to_equations; lia.
  - set (p0 := 0xE0 + r / 4096). set (b1 := 0x80 + r / 64 mod 64). set (b2 := 0x80 + r mod 64).
    assert (0xE0 <= p0 <= 0xEF /\ (if p0 =? 0xE0 then 0xA0 else 0x80) <= b1
            <= (if p0 =? 0xED then 0x9F else 0xBF) /\ 0x80 <= b2 <= 0xBF
            /\ 0x80 <= b1 <= 0xBF) as (Hp & Hb & Hb2 & Hb').
    { subst p0 b1 b2. destruct (Z.eqb_spec (0xE0 + r / 4096) 0xE0), (Z.eqb_spec (0xE0 + r / 4096) 0xED);
        Z.div_mod_to_equations; lia. }
    unfold DecodeRune. destruct (Z.ltb_spec p0 0x80); [lia|].
    rewrite first_info_3 by exact Hp. rewrite !zlen_cons. pose proof (zlen_nonneg s).
    destruct (Z.ltb_spec (1 + (1 + (1 + zlen s))) 3); [lia|].
    rewrite (proj2 (in_range_true _ _ b1)) by exact Hb. cbn [negb].
    change (3 <=? 2) with false. cbv iota.
    rewrite (proj2 (in_range_true _ _ b2)) by exact Hb2. cbn [negb].
    change (3 <=? 3) with true. cbv iota.
    rewrite land_0F, !land_3F. rewrite lor3 by (apply Z.mod_pos_bound; lia).
    f_equal. clear Hb. subst p0 b1 b2. Z.div_mod_to_equations; lia.
  - set (p0 := 0xF0 + r / 262144). set (b1 := 0x80 + r / 4096 mod 64).
    set (b2 := 0x80 + r / 64 mod 64). set (b3 := 0x80 + r mod 64).
    assert (0xF0 <= p0 <= 0xF4 /\ (if p0 =? 0xF0 then 0x90 else 0x80) <= b1
            <= (if p0 =? 0xF4 then 0x8F else 0xBF) /\ 0x80 <= b2 <= 0xBF
            /\ 0x80 <= b3 <= 0xBF) as (Hp & Hb & Hb2 & Hb3).
    { subst p0 b1 b2 b3.
      destruct (Z.eqb_spec (0xF0 + r / 262144) 0xF0), (Z.eqb_spec (0xF0 + r / 262144) 0xF4);
        Z.div_mod_to_equations; lia. }
    unfold DecodeRune. destruct (Z.ltb_spec p0 0x80); [lia|].
    rewrite first_info_4 by exact Hp. rewrite !zlen_cons. pose proof (zlen_nonneg s).
    destruct (Z.ltb_spec (1 + (1 + (1 + (1 + zlen s)))) 4); [lia|].
    rewrite (proj2 (in_range_true _ _ b1)) by exact Hb. cbn [negb].
    change (4 <=? 2) with false. cbv iota.
    rewrite (proj2 (in_range_true _ _ b2)) by exact Hb2. cbn [negb].
    change (4 <=? 3) with false. cbv iota.
    rewrite (proj2 (in_range_true _ _ b3)) by exact Hb3. cbn [negb].
    rewrite land_07, !land_3F. rewrite lor4 by (apply Z.mod_pos_bound; lia).
    f_equal. clear Hb. subst p0 b1 b2 b3. Z.div_mod_to_equations; lia.
Qed.

(** Every successful decoding is the decoding of a whole character. *)
Lemma DecodeRune_cases b s : is_byte b ->
  (exists r q, is_scalar r /\ b :: s = utf8_char r ++ q /\
               DecodeRune (b :: s) = (r, zlen (utf8_char r))) \/
  DecodeRune (b :: s) = (RuneError, 1).
Proof.
  intros Hb. unfold is_byte in Hb. unfold DecodeRune.
  destruct (Z.ltb_spec b 0x80) as [Hlt|Hge].
  { left. exists b, s. unfold is_scalar, utf8_char.
    destruct (Z.ltb_spec b 0x80); [|lia]. repeat split; try lia. }
  destruct (first_info b) as [[sz [lo hi]]|] eqn:Ef; [|right; reflexivity].
  apply first_info_spec in Ef.
  destruct s as [|b1 s]; [right; reflexivity|].
  destruct (zlen (b :: b1 :: s) <? sz) eqn:El; [right; reflexivity|].
  destruct (in_range lo hi b1) eqn:E1; cbn [negb]; [|right; reflexivity].
  rewrite in_range_true in E1.
  destruct Ef as [(-> & Hp & -> & ->)|[(-> & Hp & -> & ->)|(-> & Hp & -> & ->)]].
  - change (2 <=? 2) with true. cbv iota. left.
    rewrite land_1F, land_3F, lor2 by (apply Z.mod_pos_bound; lia).
    set (r := b mod 32 * 64 + b1 mod 64).
    assert (r = (b - 0xC0) * 64 + (b1 - 0x80)) as Er by (subst r; Z.div_mod_to_equations; lia).
    exists r, s. assert (0x80 <= r < 0x800) by lia.
    assert (utf8_char r = [b; b1]) as Ec.
    { unfold utf8_char. destruct (Z.ltb_spec r 0x80); [lia|]. destruct (Z.ltb_spec r 0x800); [|lia].
      f_equal; [|f_equal]; Z.div_mod_to_equations; lia. }
    rewrite Ec. repeat split; unfold is_scalar; try lia; reflexivity.
  - change (3 <=? 2) with false. cbv iota.
    destruct s as [|b2 s]; [right; reflexivity|].
    destruct (in_range 0x80 0xBF b2) eqn:E2; cbn [negb]; [|right; reflexivity].
    rewrite in_range_true in E2. change (3 <=? 3) with true. cbv iota. left.
    rewrite land_0F, !land_3F, lor3 by (apply Z.mod_pos_bound; lia).
    assert (0x80 <= b1 <= 0xBF) as Hb1 by (destruct (b =? 0xE0), (b =? 0xED); lia).
    set (r := (b mod 16 * 64 + b1 mod 64) * 64 + b2 mod 64).
    assert (r = ((b - 0xE0) * 64 + (b1 - 0x80)) * 64 + (b2 - 0x80)) as Er
      by (subst r; clear E1; Z.div_mod_to_equations; lia).
    exists r, s.
    assert (0x800 <= r < 0x10000 /\ ~ 0xD800 <= r <= 0xDFFF) as [Hr Hs]
      by (destruct (Z.eqb_spec b 0xE0), (Z.eqb_spec b 0xED); lia).
    clear E1.
    assert (utf8_char r = [b; b1; b2]) as Ec.
    { unfold utf8_char. destruct (Z.ltb_spec r 0x80); [lia|]. destruct (Z.ltb_spec r 0x800); [lia|].
      destruct (Z.ltb_spec r 0x10000); [|lia].
      f_equal; [|f_equal; [|f_equal]]; Z.div_mod_to_equations; lia. }
    rewrite Ec. repeat split; unfold is_scalar; try lia; reflexivity.
  - change (4 <=? 2) with false. cbv iota.
    destruct s as [|b2 s]; [right; reflexivity|].
    destruct (in_range 0x80 0xBF b2) eqn:E2; cbn [negb]; [|right; reflexivity].
    rewrite in_range_true in E2. change (4 <=? 3) with false. cbv iota.
    destruct s as [|b3 s]; [right; reflexivity|].
    destruct (in_range 0x80 0xBF b3) eqn:E3; cbn [negb]; [|right; reflexivity].
    rewrite in_range_true in E3. left.
    rewrite land_07, !land_3F, lor4 by (apply Z.mod_pos_bound; lia).
    assert (0x80 <= b1 <= 0xBF) as Hb1 by (destruct (b =? 0xF0), (b =? 0xF4); lia).
    set (r := ((b mod 8 * 64 + b1 mod 64) * 64 + b2 mod 64) * 64 + b3 mod 64).
    assert (r = (((b - 0xF0) * 64 + (b1 - 0x80)) * 64 + (b2 - 0x80)) * 64 + (b3 - 0x80)) as Er
      by (subst r; clear E1; Z.div_mod_to_equations; lia).
    exists r, s.
    assert (0x10000 <= r <= 0x10FFFF) as Hr
      by (destruct (Z.eqb_spec b 0xF0), (Z.eqb_spec b 0xF4); lia).
    clear E1.
    assert (utf8_char r = [b; b1; b2; b3]) as Ec.
    { unfold utf8_char. destruct (Z.ltb_spec r 0x80); [lia|]. destruct (Z.ltb_spec r 0x800); [lia|].
      destruct (Z.ltb_spec r 0x10000); [lia|].
      f_equal; [|f_equal; [|f_equal; [|f_equal]]]; Z.div_mod_to_equations; lia. }
    rewrite Ec. repeat split; unfold is_scalar; try lia; reflexivity.
Qed.

Lemma DecodeRune_bad b s : DecodeRune (b :: s) = (RuneError, 1) ->
  forall r, is_scalar r -> ~ is_prefix (utf8_char r) (b :: s).
Proof.
  intros H r Hr [q E]. rewrite E, DecodeRune_char in H by exact Hr.
  injection H as -> Hl. discriminate Hl.
Qed.

(** One step of reading. *)
Lemma DecodeRune_step b s : is_byte b ->
  exists r n, DecodeRune (b :: s) = (r, n) /\ 1 <= n <= zlen (b :: s) /\ n <= 4 /\ is_scalar r /\
    forall rs, reads_as (zdrop n (b :: s)) rs -> reads_as (b :: s) (r :: rs).
Proof.
  intros Hb. destruct (DecodeRune_cases b s Hb) as [(r & q & Hr & Eq & Ed)|Ed].
  - exists r, (zlen (utf8_char r)). split; [exact Ed|].
    pose proof (utf8_char_len r). pose proof (zlen_nonneg q).
    repeat split; try lia; try (apply Hr).
    + rewrite Eq, zlen_app. lia.
    + intros rs Hrs. rewrite Eq in *. rewrite zdrop_app_exact in Hrs by reflexivity.
      constructor; assumption.
  - exists RuneError, 1. split; [exact Ed|].
    pose proof (zlen_nonneg s). rewrite zlen_cons. repeat split; try (unfold RuneError; lia).
    intros rs Hrs. apply reads_bad; [|exact Hrs]. apply DecodeRune_bad; exact Ed.
Qed.

Lemma Forall_zdrop {A} (P : A -> Prop) n l : Forall P l -> Forall P (zdrop n l).
Proof.
  unfold zdrop. revert l. induction (Z.to_nat n) as [|k IH]; intros l H; [exact H|].
  destruct H; cbn; [constructor|auto].
Qed.
Lemma Forall_ztake {A} (P : A -> Prop) n l : Forall P l -> Forall P (ztake n l).
Proof.
  unfold ztake. revert l. induction (Z.to_nat n) as [|k IH]; intros l H; [constructor|].
  destruct H; cbn; constructor; auto.
Qed.

(** ** []rune(s) *)
Lemma runes_fuel_reads fuel : forall s, Forall is_byte s -> (length s <= fuel)%nat ->
  reads_as s (runes_fuel fuel s).
Proof.
  induction fuel as [|fuel IH]; intros s Hs Hl.
  - destruct s; [constructor|cbn in Hl; lia].
  - destruct s as [|b s]; [constructor|]. cbn [runes_fuel].
    inversion Hs as [|? ? Hb Hs']; subst.
    destruct (DecodeRune_step b s Hb) as (r & n & E & Hn & _ & _ & Hstep).
    rewrite E. apply Hstep. apply IH.
    + apply Forall_zdrop. exact Hs.
    + pose proof (zlen_zdrop n (b :: s)) as Hz. unfold zlen in *. cbn [length] in *. lia.
Qed.

Lemma string_to_runes_reads s : Forall is_byte s -> reads_as s (string_to_runes s).
Proof. intros H. apply runes_fuel_reads; [exact H|lia]. Qed.

Lemma utf8_char_nonempty r : utf8_char r <> [].
Proof. intros E. pose proof (utf8_char_len r) as H. rewrite E in H. cbn in H. lia. Qed.

Lemma app_prefix_eq (a b p q : list Z) : a ++ p = b ++ q ->
  is_prefix a b \/ is_prefix b a.
Proof.
  revert b. induction a as [|x a IH]; intros b E; [left; exists b; reflexivity|].
  destruct b as [|y b]; [right; exists (x :: a); reflexivity|].
  cbn in E. injection E as -> E. destruct (IH _ E) as [[q' ->]|[q' ->]].
  - left. exists q'. reflexivity.
  - right. exists q'. reflexivity.
Qed.

(** The character at the start of a string is unique. *)
Lemma utf8_char_unique r r' p q : is_scalar r -> is_scalar r' ->
  utf8_char r ++ p = utf8_char r' ++ q -> r = r' /\ p = q.
Proof.
  intros Hr Hr' E.
  pose proof (DecodeRune_char r p Hr) as D. rewrite E, DecodeRune_char in D by exact Hr'.
  injection D as -> _. split; [reflexivity|]. apply app_inv_head in E. exact E.
Qed.

Lemma reads_as_fun s rs rs' : reads_as s rs -> reads_as s rs' -> rs = rs'.
Proof.
  intros H. revert rs'. induction H as [|r s rs Hr H IH|b s rs Hbad H IH]; intros rs' H'.
  - inversion H' as [|r s0 rs0 Hr0 Hs0 E| ]; [reflexivity|].
    apply app_eq_nil in E as [E _]. destruct (utf8_char_nonempty r E).
  - inversion H' as [E|r0 s0 rs0 Hr0 Hs0 E|b0 s0 rs0 Hbad0 Hs0 E].
    + symmetry in E. apply app_eq_nil in E as [E _]. destruct (utf8_char_nonempty r E).
    + apply utf8_char_unique in E as [-> ->]; [|assumption..].
      f_equal. apply IH. exact Hs0.
    + exfalso. apply (Hbad0 r Hr). exists s. congruence.
  - inversion H' as [|r0 s0 rs0 Hr0 Hs0 E|b0 s0 rs0 Hbad0 Hs0 E].
    + exfalso. apply (Hbad r0 Hr0). exists s0. congruence.
    + subst. f_equal. apply IH. exact Hs0.
Qed.

Lemma string_to_runes_eq s rs : Forall is_byte s -> reads_as s rs -> string_to_runes s = rs.
Proof. intros Hs H. eapply reads_as_fun; [apply string_to_runes_reads; exact Hs|exact H]. Qed.

Lemma reads_as_utf8_app rs s rs' : Forall is_scalar rs -> reads_as s rs' ->
  reads_as (utf8 rs ++ s) (rs ++ rs').
Proof.
  intros H Hs. induction H as [|r rs Hr Hrs IH]; [exact Hs|].
  cbn [utf8 flat_map app]. rewrite <- app_assoc. constructor; [exact Hr|exact IH].
Qed.
Lemma reads_as_utf8 rs : Forall is_scalar rs -> reads_as (utf8 rs) rs.
Proof.
  intros H. pose proof (reads_as_utf8_app rs [] [] H reads_nil) as Hr.
  rewrite !app_nil_r in Hr. exact Hr.
Qed.

Lemma reads_as_scalar s rs : reads_as s rs -> Forall is_scalar rs.
Proof. induction 1; constructor; auto. apply scalar_replacement. Qed.

Lemma string_to_runes_scalar s : Forall is_byte s -> Forall is_scalar (string_to_runes s).
Proof. intros H. eapply reads_as_scalar, string_to_runes_reads, H. Qed.

Lemma string_to_runes_utf8 rs : Forall is_scalar rs -> string_to_runes (utf8 rs) = rs.
Proof.
  intros H. apply string_to_runes_eq; [apply utf8_bytes; exact H|apply reads_as_utf8; exact H].
Qed.
Lemma string_to_runes_utf8_app rs s : Forall is_scalar rs -> Forall is_byte s ->
  string_to_runes (utf8 rs ++ s) = rs ++ string_to_runes s.
Proof.
  intros H Hs. apply string_to_runes_eq.
  - apply Forall_app. split; [apply utf8_bytes; exact H|exact Hs].
  - apply reads_as_utf8_app; [exact H|apply string_to_runes_reads; exact Hs].
Qed.

Lemma utf8_inj rs rs' : Forall is_scalar rs -> Forall is_scalar rs' ->
  utf8 rs = utf8 rs' -> rs = rs'.
Proof.
  intros H H' E. rewrite <- (string_to_runes_utf8 rs), <- (string_to_runes_utf8 rs') by assumption.
  congruence.
Qed.

Lemma runes_to_string_utf8 rs : Forall is_scalar rs -> runes_to_string rs = utf8 rs.
Proof.
  induction 1 as [|r rs Hr Hrs IH]; [reflexivity|].
  cbn [runes_to_string utf8 flat_map]. rewrite EncodeRune_scalar by exact Hr.
  f_equal. exact IH.
Qed.

(** A string equals the encoding of its reading iff it is valid UTF-8. *)
Lemma reads_as_valid s rs : reads_as s rs -> (s = utf8 rs <-> valid_utf8 s).
Proof.
  intros H. split.
  - intros E. exists rs. split; [eapply reads_as_scalar; exact H|exact E].
  - intros (rs' & Hrs' & ->). f_equal.
    eapply reads_as_fun; [apply reads_as_utf8; exact Hrs'|exact H].
Qed.

Lemma string_to_runes_length s : Forall is_byte s ->
  (length (string_to_runes s) <= length s)%nat.
Proof.
  intros H. apply string_to_runes_reads in H.
  induction H as [|r s rs Hr H IH|b s rs Hbad H IH]; cbn [length]; [lia| |lia].
  rewrite app_length. pose proof (utf8_char_len r) as Hl. unfold zlen in Hl. lia.
Qed.
Lemma string_to_runes_nonempty s : Forall is_byte s -> s <> [] -> string_to_runes s <> [].
Proof.
  intros H Hn E. pose proof (string_to_runes_reads s H) as Hr. rewrite E in Hr.
  inversion Hr. congruence.
Qed.
