(** Digits of words, for C125. *)
From Coq Require Import Lia.
From Verif Require Import Base Spec_Wire.
Local Open Scope N_scope.

Lemma digit : forall d a b a' b', a < d -> a' < d -> a + d * b = a' + d * b' -> a = a' /\ b = b'.
Proof. intros d a b a' b' A A' H. rewrite (N.add_comm a), (N.add_comm a') in H. destruct (N.div_mod_unique d b b' a a' A A' H). auto. Qed.
Lemma byte1 : forall w, N.land w 255 = w mod 256.
Proof. intros w. change 255 with (N.ones 8). apply N.land_ones. Qed.
Lemma split256 : forall c w, c <> 0 -> w mod (256 * c) = w mod 256 + 256 * ((w / 256) mod c).
Proof. intros c w C. apply N.mod_mul_r; [discriminate|exact C]. Qed.
Lemma byte2 : forall w, N.land w 65535 = w mod 256 + 256 * (w / 256 mod 256).
Proof. intros w. change 65535 with (N.ones 16). rewrite N.land_ones. change (2 ^ 16) with (256 * 256). apply split256. discriminate. Qed.
Lemma byte3 : forall w, N.land w 16777215 = w mod 256 + 256 * (w / 256 mod 256 + 256 * (w / 65536 mod 256)).
Proof.
  intros w. change 16777215 with (N.ones 24). rewrite N.land_ones. change (2 ^ 24) with (256 * (256 * 256)). rewrite !split256 by discriminate.
  rewrite N.div_div by discriminate. reflexivity.
Qed.
Lemma top : forall w, word w -> w / 16777216 mod 256 = w / 16777216.
Proof. intros w W. apply N.mod_small. apply N.div_lt_upper_bound; [discriminate|exact W]. Qed.
Lemma byte4 : forall w, word w -> w = w mod 256 + 256 * (w / 256 mod 256 + 256 * (w / 65536 mod 256 + 256 * (w / 16777216))).
Proof.
  intros w W. rewrite <- (top w W). rewrite <- (N.mod_small w (256 * (256 * (256 * 256)))) at 1 by exact W. rewrite !split256 by discriminate.
  rewrite !N.div_div by discriminate. reflexivity.
Qed.
Lemma nibble : forall x, x mod 256 mod 16 = x mod 16.
Proof.
  intros x. change 16 with (2 ^ 4). change 256 with (2 ^ 8). rewrite <- !N.land_ones, <- N.land_assoc. reflexivity.
Qed.
Lemma land_split : forall k w m, N.land w m = N.land (w mod 2 ^ k) (m mod 2 ^ k) + 2 ^ k * N.land (w / 2 ^ k) (m / 2 ^ k).
Proof.
  intros k w m. rewrite (N.div_mod' (N.land w m) (2 ^ k)) at 1. rewrite N.add_comm. f_equal.
  - rewrite <- !N.land_ones. apply N.bits_inj. intros j. rewrite !N.land_spec. destruct (N.testbit w j), (N.testbit m j), (N.testbit (N.ones k) j); reflexivity.
  - f_equal. rewrite <- !N.shiftr_div_pow2. apply N.shiftr_land.
Qed.

(** ** Heads *)
Lemma head_mask : forall h, N.land h 0xFFFEFFFF = h mod 65536 + 65536 * (2 * (h / 65536 / 2 mod 32768)).
Proof.
  intros h. rewrite (land_split 16). change (2 ^ 16) with 65536. change (0xFFFEFFFF mod 65536) with (N.ones 16). change (0xFFFEFFFF / 65536) with 65534.
  rewrite N.land_ones. change (2 ^ 16) with 65536. rewrite N.mod_mod by discriminate. f_equal. f_equal. rewrite (land_split 1). change (2 ^ 1) with 2. change (65534 mod 2) with 0. change (65534 / 2) with (N.ones 15).
  rewrite N.land_0_r, N.land_ones, N.add_0_l. reflexivity.
Qed.
Lemma head_parts : forall op wc, op < 65536 -> (op + 65536 * wc) mod 65536 = op /\ (op + 65536 * wc) / 65536 = wc.
Proof.
  intros op wc H. rewrite (N.mul_comm 65536). split.
  - rewrite N.mod_add by discriminate. apply N.mod_small. exact H.
  - rewrite N.div_add by discriminate. rewrite N.div_small by exact H. reflexivity.
Qed.
Lemma head_small : forall op wc, op < 65536 -> wc = 0 \/ wc = 1 -> N.land (op + 65536 * wc) 0xFFFEFFFF = op.
Proof. intros op wc H C. rewrite head_mask. destruct (head_parts op wc H) as [-> ->]. destruct C as [->| ->]; apply N.add_0_r. Qed.
Lemma head_word : forall h op, word h -> op < 65536 -> N.land h 0xFFFEFFFF = op -> h = op + 65536 * 0 \/ h = op + 65536 * 1.
Proof.
  intros h op W O H. rewrite head_mask in H. rewrite <- (N.add_0_r op) in H. change 0 with (65536 * 0) in H at 1.
  apply digit in H as [A B]; [|apply N.mod_lt; discriminate|exact O]. apply N.eq_mul_0 in B as [B|B]; [discriminate B|].
  rewrite N.mod_small in B.
  2:{ apply N.div_lt_upper_bound; [discriminate|]. apply N.div_lt_upper_bound; [discriminate|exact W]. }
  apply N.div_small_iff in B; [|discriminate]. pose proof (N.div_mod' h 65536) as D. rewrite A in D. rewrite N.add_comm in D. rewrite D.
  revert B. generalize (h / 65536). intros q Q. assert (q = 0 \/ q = 1) as [->| ->] by lia; auto.
Qed.

(** ** Versions *)
Lemma version_mask : forall w, word w -> N.land w 0xFF0F0F0F = w mod 16 + 256 * (w / 256 mod 16 + 256 * (w / 65536 mod 16 + 256 * (w / 16777216))).
Proof.
  intros w H. rewrite (land_split 8). change (2 ^ 8) with 256. change (0xFF0F0F0F mod 256) with (N.ones 4). change (0xFF0F0F0F / 256) with 0xFF0F0F.
  rewrite (land_split 8 (w / 256)). change (2 ^ 8) with 256. change (0xFF0F0F mod 256) with (N.ones 4). change (0xFF0F0F / 256) with 0xFF0F.
  rewrite (land_split 8 (w / 256 / 256)). change (2 ^ 8) with 256. change (0xFF0F mod 256) with (N.ones 4). change (0xFF0F / 256) with (N.ones 8).
  rewrite !N.land_ones. change (2 ^ 4) with 16. change (2 ^ 8) with 256. rewrite !nibble, !N.div_div by discriminate. 
  change (256 * 256) with 65536. change (65536 * 256) with 16777216. rewrite top by exact H. reflexivity.
Qed.
Lemma nibble_small : forall x, x mod 16 < 256.
Proof. intros x. apply (N.lt_trans _ 16); [apply N.mod_lt; discriminate|reflexivity]. Qed.
Lemma version_agree : forall w w', word w -> word w' -> version_word_accepted w -> (version_word_accepted w' <-> N.land w 0xFF0F0F0F = N.land w' 0xFF0F0F0F).
Proof.
  intros w w' W W' (A & B & C & D). rewrite !version_mask by assumption. unfold version_word_accepted. rewrite A, B, C, D. split.
  - intros (-> & -> & -> & ->). reflexivity.
  - intros H. apply digit in H as [P H]; [|reflexivity|apply nibble_small]. apply digit in H as [Q H]; [|reflexivity|apply nibble_small].
    apply digit in H as [R H]; [|reflexivity|apply nibble_small]. auto.
Qed.
