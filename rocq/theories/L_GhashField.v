(** The 128-bit blocks with xor and the product of SP 800-38D 6.3 are a field; a polynomial over it has at most as
    many roots as its degree.  (Proof only.) *)
Require Import Verif.Base Verif.L_Base Verif.L_Bits Verif.M_Ghash Verif.L_Clmul Verif.S_Gcm Verif.L_Ghash.
Require Import ZifyNat.

(** (Proof only.) *)
Lemma M_comm a b : r128 a -> r128 b -> M a b = M b a.
Proof. unfold r128, M. intros. now rewrite clmul_comm by lia. Qed.
(** (Proof only.) the product, kept abstract below; one; the variable of the polynomials *)
Definition G (a b : Z) : Z := gcm_mul a b.
Definition g1 : Z := Z.shiftl 1 127.
Definition gx : Z := Z.shiftl 1 126.
Local Opaque gcm_mul rn clmul gf128_big_endian M.

Lemma G_r128 a b : r128 a -> r128 b -> r128 (G a b).
Proof. intros Ha Hb. unfold G. rewrite <- M_is_gcm_mul by auto. apply M_r128; auto using gf128_be_r128. Qed.
Lemma G_comm a b : r128 a -> r128 b -> G a b = G b a.
Proof. intros Ha Hb. unfold G, r128 in *. rewrite !gcm_mul_spec by (auto; lia). now rewrite clmul_comm by lia. Qed.
Lemma gcm_mul_G a b : gcm_mul a b = G a b. Proof. reflexivity. Qed.
Lemma gcm_mul_r128 a b : r128 a -> r128 b -> r128 (gcm_mul a b). Proof. exact (G_r128 a b). Qed.
Lemma gcm_mul_comm a b : r128 a -> r128 b -> gcm_mul a b = gcm_mul b a. Proof. exact (G_comm a b). Qed.
Lemma G_lxor_r a b c : r128 a -> r128 b -> r128 c -> G a (Z.lxor b c) = Z.lxor (G a b) (G a c).
Proof.
  intros Ha Hb Hc. pose proof (r128_lxor b c Hb Hc). unfold G, r128 in *. rewrite !gcm_mul_spec by (auto; lia).
  now rewrite clmul_lxor_l, rn_lxor by lia.
Qed.
Lemma G_lxor_l a b c : r128 a -> r128 b -> r128 c -> G (Z.lxor a b) c = Z.lxor (G a c) (G b c).
Proof. intros Ha Hb Hc. rewrite !(G_comm _ c) by auto using r128_lxor. now apply G_lxor_r. Qed.
Lemma G_assoc a b c : r128 a -> r128 b -> r128 c -> G (G a b) c = G a (G b c).
Proof.
  intros Ha Hb Hc. pose proof (gf128_be_r128 a Ha) as Ha'. pose proof (gf128_be_r128 c Hc) as Hc'.
  pose proof (G_r128 b a Hb Ha) as Hba. pose proof (G_r128 b c Hb Hc) as Hbc.
  rewrite (G_comm a b), (G_comm a (G b c)) by auto. unfold G in *.
  rewrite <- (M_is_gcm_mul (gcm_mul b a) c), <- (M_is_gcm_mul (gcm_mul b c) a) by auto.
  rewrite <- (M_is_gcm_mul b a), <- (M_is_gcm_mul b c) by auto.
  rewrite !M_assoc by auto. now rewrite (M_comm (gf128_big_endian a)) by auto.
Qed.
Lemma G_0_l a : r128 a -> G 0 a = 0.
Proof. intros Ha. unfold G, r128 in *. rewrite gcm_mul_spec by (unfold r128; lia). exact (eq_trans (f_equal (rn 127) (clmul_0_r a)) (rn_0 127)). Qed.
Local Opaque G.
Lemma G_0_r a : r128 a -> G a 0 = 0.
Proof. intros Ha. rewrite G_comm by auto using r128_0. now apply G_0_l. Qed.

(** two additive maps that agree on the single bits agree *)
Definition additive (f : Z -> Z) : Prop := forall a b, r128 a -> r128 b -> f (Z.lxor a b) = Z.lxor (f a) (f b).
Definition bits128 : list Z := map (fun i => Z.shiftl 1 (Z.of_nat i)) (seq 0 128).
Lemma additive_0 f : additive f -> f 0 = 0.
Proof. intros A. pose proof (A 0 0 r128_0 r128_0) as E. rewrite !Z.lxor_nilpotent in E. exact E. Qed.
Lemma additive_ext f g : additive f -> additive g -> Forall (fun b => f b = g b) bits128 -> forall a, r128 a -> f a = g a.
Proof.
  intros Af Ag F a Ha.
  assert (P : forall n, (n <= 128)%nat -> forall a, r128 a -> f (a mod 2 ^ Z.of_nat n) = g (a mod 2 ^ Z.of_nat n)).
  { induction n as [|n IH]; intros Hn x Hx.
    - change (2 ^ Z.of_nat 0) with 1. rewrite Z.mod_1_r. now rewrite !additive_0.
    - replace (Z.of_nat (S n)) with (Z.of_nat n + 1) by lia. rewrite mod_pow2_succ by lia.
      assert (B : In (2 ^ Z.of_nat n) bits128).
      { unfold bits128. apply in_map_iff. exists n. split; [rewrite Z.shiftl_mul_pow2; lia | apply in_seq; lia]. }
      assert (R : r128 (2 ^ Z.of_nat n)).
      { unfold r128. split; [apply Z.pow_nonneg; lia | apply Z.pow_lt_mono_r; lia]. }
      assert (R' : r128 (x mod 2 ^ Z.of_nat n)).
      { unfold r128 in *. pose proof (Z.mod_pos_bound x (2 ^ Z.of_nat n)). lia. }
      rewrite Forall_forall in F. pose proof (F _ B) as E.
      destruct (Z.testbit x (Z.of_nat n)); cbn [bz].
      + rewrite Af, Ag, E, IH by (auto; lia). reflexivity.
      + rewrite Z.lxor_0_l. apply IH; auto; lia. }
  specialize (P 128%nat ltac:(lia) a Ha). rewrite Z.mod_small in P by exact Ha. exact P.
Qed.
Lemma bits128_r128 : Forall r128 bits128.
Proof. apply Forall_forall. intros b Hb. apply in_map_iff in Hb. destruct Hb as (i & <- & Hi). apply in_seq in Hi.
  rewrite Z.shiftl_mul_pow2, Z.mul_1_l by lia. unfold r128. split; [apply Z.pow_nonneg; lia | apply Z.pow_lt_mono_r; lia]. Qed.

(** one *)
Lemma g1_r128 : r128 g1. Proof. now unfold r128, g1. Qed.
Lemma gx_r128 : r128 gx. Proof. now unfold r128, gx. Qed.
Lemma G_1_bits : forallb (fun b => gcm_mul g1 b =? b) bits128 = true. Proof. vm_compute. reflexivity. Qed.
Lemma G_1_l a : r128 a -> G g1 a = a.
Proof.
  apply (additive_ext (G g1) (fun a => a)).
  - intros x y Hx Hy. apply G_lxor_r; auto using g1_r128.
  - intros x y _ _. reflexivity.
  - apply Forall_forall. intros b Hb. pose proof G_1_bits as F. rewrite forallb_forall in F. apply Z.eqb_eq. exact (F b Hb).
Qed.
Lemma G_1_r a : r128 a -> G a g1 = a.
Proof. intros. rewrite G_comm by auto using g1_r128. now apply G_1_l. Qed.

(** squaring is additive and multiplicative *)
Definition sq (a : Z) : Z := G a a.
Fixpoint fr (n : nat) (a : Z) : Z := match n with O => a | S n => sq (fr n a) end.
Lemma sq_r128 a : r128 a -> r128 (sq a). Proof. intros. now apply G_r128. Qed.
Lemma sq_add : additive sq.
Proof.
  intros a b Ha Hb. unfold sq. pose proof (r128_lxor a b Ha Hb). rewrite G_lxor_l, !G_lxor_r by auto. rewrite (G_comm b a) by auto. xac.
Qed.
Lemma sq_mul a b : r128 a -> r128 b -> sq (G a b) = G (sq a) (sq b).
Proof.
  intros Ha Hb. unfold sq. rewrite (G_assoc a b (G a b)) by auto using G_r128. rewrite <- (G_assoc b a b) by auto.
  rewrite (G_comm b a) by auto. rewrite (G_assoc a b b) by auto. now rewrite <- (G_assoc a a) by auto using G_r128.
Qed.
Lemma fr_r128 n a : r128 a -> r128 (fr n a). Proof. intros. induction n; cbn [fr]; auto using sq_r128. Qed.
Lemma fr_add n : additive (fr n).
Proof. intros a b Ha Hb. induction n as [|n IH]; cbn [fr]; [reflexivity|]. rewrite IH. apply sq_add; now apply fr_r128. Qed.
Lemma fr_mul n a b : r128 a -> r128 b -> fr n (G a b) = G (fr n a) (fr n b).
Proof. intros Ha Hb. induction n as [|n IH]; cbn [fr]; [reflexivity|]. rewrite IH. apply sq_mul; now apply fr_r128. Qed.
Lemma fr_iter n a : fr n a = Nat.iter n (fun x => gcm_mul x x) a.
Proof. induction n as [|n IH]; cbn [fr Nat.iter nat_rect]; [reflexivity|]. rewrite IH. reflexivity. Qed.
Lemma fr_x : fr 128 gx = gx.
Proof. rewrite fr_iter. vm_compute. reflexivity. Qed.
Lemma fr_1 n : fr n g1 = g1.
Proof. induction n as [|n IH]; cbn [fr]; [reflexivity|]. rewrite IH. apply G_1_l, g1_r128. Qed.
Lemma x_bits : forallb (fun i => gcm_mul gx (Z.shiftl 1 (Z.of_nat (S i))) =? Z.shiftl 1 (Z.of_nat i)) (seq 0 127) = true.
Proof. vm_compute. reflexivity. Qed.
Lemma x_bit i : (i < 127)%nat -> G gx (Z.shiftl 1 (Z.of_nat (S i))) = Z.shiftl 1 (Z.of_nat i).
Proof. intros Hi. pose proof x_bits as F. rewrite forallb_forall in F. apply Z.eqb_eq. apply F. apply in_seq. lia. Qed.
Lemma fr_bits n : (n <= 127)%nat -> fr 128 (Z.shiftl 1 (Z.of_nat (127 - n))) = Z.shiftl 1 (Z.of_nat (127 - n)).
Proof.
  induction n as [|n IH]; intros Hn; [exact (fr_1 128)|].
  rewrite <- (x_bit (127 - S n)) by lia. replace (S (127 - S n)) with (127 - n)%nat by lia.
  assert (R : r128 (Z.shiftl 1 (Z.of_nat (127 - n)))).
  { pose proof bits128_r128 as B. rewrite Forall_forall in B. apply B. unfold bits128. apply in_map_iff. exists (127 - n)%nat. split; auto. apply in_seq. lia. }
  rewrite fr_mul by auto using gx_r128. rewrite fr_x, IH by lia. reflexivity.
Qed.
(** a^(2^128) = a *)
Lemma fr_id a : r128 a -> fr 128 a = a.
Proof.
  apply (additive_ext (fr 128) (fun a => a)); [apply fr_add | intros x y _ _; reflexivity |].
  apply Forall_forall. intros b Hb. apply in_map_iff in Hb. destruct Hb as (i & <- & Hi). apply in_seq in Hi.
  replace i with (127 - (127 - i))%nat by lia. apply fr_bits. lia.
Qed.

(** the only solutions of e^2 = e are 0 and 1: [lmap] is an additive map with lmap (e^2 + e) = e + (0 or 1) *)
Definition ltab : list Z :=
  [0x00000000000000000000000000000000; 0x04a2ade42a1db558927495c4d4e62fc1;
   0x35bd0e43ef6cf78dcef750ee63bd3171; 0x41d77801d619af2a38dab35b297373a6;
   0x36dc3b3404788e15d4cfd6f8f5447461; 0x7adc3b3404788e15d4cfd6f8f5447467;
   0x5f67891c31b7edb03c86875f90384d1c; 0x646cca29e3d6cc8fd093e2fc4c0f4ad5;
   0x51eae8be2fe60df61bf9191de1788d94; 0x36e717e02724b8e1d1527df73b8e8241;
   0x5f86cdbc744e28fe3430f49ddf071154; 0x2561da5c536a901fe562896ae4899333;
   0x099a6e1cca2f8641a0b0910804c90841; 0x2cfbb4409945165e45d21862e0409b32;
   0x00000d94d9da18080030c4db699e5dc0; 0x197d9b438cafcf2f8e88275824a90133;
   0x645919a4b35879f7d7a68d71cb5770d5; 0x7348a7e5645f93d076e747a9d181ec26;
   0x602105ae977251e64834e0c2dd2d5a94; 0x2c14dbb71e26fc964f314b9433eb3eb2;
   0x044eaa59bd8819a999287fa5ed58ad81; 0x77dcb1c60e3ad5c9e2190477682adba7;
   0x701c741cbd9fc8b06b94eadf79b8c426; 0x46f806225397f491bb49eab33e4cf467;
   0x79b07befedd921e9cd751ec18ebeebe7; 0x56f3167fe31302df9eb885b869165d55;
   0x6462e2cc93c28627d2d0526e0d66c2d5; 0x1a24eaaa541c8b0f9092b01169688933;
   0x4bf6a9a1f02e1f698fec4b1a74166be7; 0x21ce3a83c07744de74dad50f0d583b32;
   0x634efa836deeebf650dae654442b4894; 0x224d20acccef41ee67fd0ac2e3641972;
   0x4bf8b9d33b8f38198de17cdee54751e7; 0x698e6217d7fa8627ef6aa903c013fa95;
   0x457534e82f16f649aa2d862c91005ba7; 0x144558bb6c9dfcd7bc4c239cf48626f3;
   0x3cfddc25f2ae2df86391fd8d3387a7c0; 0x2bd77bb364af6b3fc733d8875e039333;
   0x26d44eb77ddd535ff0b1c738de72bb33; 0x6aef57603cdbfceff55228f556d54755;
   0x285aabc679b16ad7d6c2852abfdb1eb3; 0x038e6217d7f479d8109554569546afc0;
   0x79880aa666d696d9c926622882fff1e7; 0x312705524db61730583bcf844c342240;
   0x5c33b52f8947e9462158188b7248d294; 0x3bdc8ad604b36599e246fae899f68fc1;
   0x072ccff3fd3d186182e1ce9a41041041; 0x5252e8c1d3a8e3be0d2c5beb59e57554;
   0x489a0b11781e0c1196cc4fdebc394c27; 0x1af0929920b9589f9fb368dce89d2373;
   0x2f76850d57908a5e54a716d46cf0bb32; 0x3f46b4c41d7d395874f4e33b9d331780;
   0x7986f6afcfc951e9cb9188c1a5beebe7; 0x258e6f54bc4bf6f7ef54f70e70ef2ef3;
   0x55aabdbeec28a2078079924a4cd2f295; 0x229a33517c61d3ee69739a8be16c1972;
   0x049a065cd7758d5196f0e3578d383201; 0x428019a10caacb8824c8241264b2fba6;
   0x4622ba58b211bb21b69fb337b1785627; 0x5cea6fd5b105659e2d1ccaeb5d2c7d54;
   0x36e9eb0be64d6b99d3ec2e5e502bb781; 0x5ce7c3e3d68e47f62e5390ab45fe70d4;
   0x329f337db88e12004e8e904902080000; 0x48afd66e759a994991d0e977a9aa5ba7;
   0x04a2ade42a1db559927495c4d4e62fc1; 0x41d77801d619af2838dab35b297373a6;
   0x7adc3b3404788e11d4cfd6f8f5447467; 0x646cca29e3d6cc87d093e2fc4c0f4ad5;
   0x36e717e02724b8f1d1527df73b8e8241; 0x2561da5c536a903fe562896ae4899333;
   0x2cfbb4409945161e45d21862e0409b32; 0x197d9b438cafcfaf8e88275824a90133;
   0x7348a7e5645f92d076e747a9d181ec26; 0x2c14dbb71e26fe964f314b9433eb3eb2;
   0x77dcb1c60e3ad1c9e2190477682adba7; 0x46f806225397fc91bb49eab33e4cf467;
   0x56f3167fe31312df9eb885b869165d55; 0x1a24eaaa541cab0f9092b01169688933;
   0x21ce3a83c07704de74dad50f0d583b32; 0x224d20acccefc1ee67fd0ac2e3641972;
   0x698e6217d7fb8627ef6aa903c013fa95; 0x144558bb6c9ffcd7bc4c239cf48626f3;
   0x2bd77bb364ab6b3fc733d8875e039333; 0x6aef57603cd3fceff55228f556d54755;
   0x038e6217d7e479d8109554569546afc0; 0x312705524d961730583bcf844c342240;
   0x3bdc8ad604f36599e246fae899f68fc1; 0x5252e8c1d328e3be0d2c5beb59e57554;
   0x1af0929921b9589f9fb368dce89d2373; 0x3f46b4c41f7d395874f4e33b9d331780;
   0x258e6f54b84bf6f7ef54f70e70ef2ef3; 0x229a33517461d3ee69739a8be16c1972;
   0x428019a11caacb8824c8241264b2fba6; 0x5cea6fd59105659e2d1ccaeb5d2c7d54;
   0x5ce7c3e3968e47f62e5390ab45fe70d4; 0x48afd66ef59a994991d0e977a9aa5ba7;
   0x41d77800d619af2838dab35b297373a6; 0x646cca2be3d6cc87d093e2fc4c0f4ad5;
   0x2561da58536a903fe562896ae4899333; 0x197d9b4b8cafcfaf8e88275824a90133;
   0x2c14dba71e26fe964f314b9433eb3eb2; 0x46f806025397fc91bb49eab33e4cf467;
   0x1a24eaea541cab0f9092b01169688933; 0x224d202cccefc1ee67fd0ac2e3641972;
   0x144559bb6c9ffcd7bc4c239cf48626f3; 0x6aef55603cd3fceff55228f556d54755;
   0x312701524d961730583bcf844c342240; 0x5252e0c1d328e3be0d2c5beb59e57554;
   0x3f46a4c41f7d395874f4e33b9d331780; 0x229a13517461d3ee69739a8be16c1972;
   0x5cea2fd59105659e2d1ccaeb5d2c7d54; 0x48af566ef59a994991d0e977a9aa5ba7;
   0x646dca2be3d6cc87d093e2fc4c0f4ad5; 0x197f9b4b8cafcfaf8e88275824a90133;
   0x46fc06025397fc91bb49eab33e4cf467; 0x2245202cccefc1ee67fd0ac2e3641972;
   0x6aff55603cd3fceff55228f556d54755; 0x5272e0c1d328e3be0d2c5beb59e57554;
   0x22da13517461d3ee69739a8be16c1972; 0x482f566ef59a994991d0e977a9aa5ba7;
   0x187f9b4b8cafcfaf8e88275824a90133; 0x2045202cccefc1ee67fd0ac2e3641972;
   0x5672e0c1d328e3be0d2c5beb59e57554; 0x402f566ef59a994991d0e977a9aa5ba7;
   0x3045202cccefc1ee67fd0ac2e3641972; 0x602f566ef59a994991d0e977a9aa5ba7;
   0x202f566ef59a994991d0e977a9aa5ba7; 0x10d04d25f93556e69f58ce2f8d035a94].
Fixpoint lsum (v : Z) (i : Z) (t : list Z) : Z :=
  match t with [] => 0 | x :: r => Z.lxor (bz (Z.testbit v i) x) (lsum v (i + 1) r) end.
Definition lmap (v : Z) : Z := lsum v 0 ltab.
Lemma lmap_add : additive lmap.
Proof.
  intros a b _ _. unfold lmap. generalize ltab. intros t. generalize 0. induction t as [|x t IH]; intros i; cbn [lsum]; [reflexivity|].
  rewrite Z.lxor_spec, bz_xorb, IH. xac.
Qed.
Definition top (e : Z) : Z := bz (Z.testbit e 127) g1.
Lemma lmap_bits : forallb (fun b => lmap (Z.lxor (gcm_mul b b) b) =? Z.lxor b (top b)) bits128 = true.
Proof. vm_compute. reflexivity. Qed.
Lemma lmap_spec e : r128 e -> lmap (Z.lxor (sq e) e) = Z.lxor e (top e).
Proof.
  apply (additive_ext (fun e => lmap (Z.lxor (sq e) e)) (fun e => Z.lxor e (top e))).
  - intros a b Ha Hb. rewrite sq_add by auto. rewrite <- lmap_add by auto using r128_lxor, sq_r128. f_equal. xac.
  - intros a b _ _. unfold top. rewrite Z.lxor_spec, bz_xorb. xac.
  - apply Forall_forall. intros b Hb. pose proof lmap_bits as F. rewrite forallb_forall in F. apply Z.eqb_eq. exact (F b Hb).
Qed.
Lemma idempotent e : r128 e -> sq e = e -> e = 0 \/ e = g1.
Proof.
  intros He E. pose proof (lmap_spec e He) as L. rewrite E, Z.lxor_nilpotent in L.
  rewrite (additive_0 lmap lmap_add) in L. symmetry in L. apply Z.lxor_eq in L. unfold top in L.
  destruct (Z.testbit e 127); cbn [bz] in L; auto.
Qed.

(** a^(2^n - 1) *)
Fixpoint pr (n : nat) (a : Z) : Z := match n with O => g1 | S n => G a (sq (pr n a)) end.
Lemma pr_r128 n a : r128 a -> r128 (pr n a).
Proof. intros. induction n; cbn [pr]; auto using g1_r128, G_r128, sq_r128. Qed.
Lemma pr_fr n a : r128 a -> G a (pr n a) = fr n a.
Proof.
  intros Ha. induction n as [|n IH]; cbn [pr fr]; [now apply G_1_r|].
  rewrite <- IH. pose proof (pr_r128 n a Ha). rewrite sq_mul by auto. unfold sq at 2. now rewrite G_assoc by auto using sq_r128.
Qed.
(** (Proof only.) the inverse, a^(2^128 - 2) *)
Definition ginv (a : Z) : Z := sq (pr 127 a).
Lemma ginv_r128 a : r128 a -> r128 (ginv a). Proof. intros. apply sq_r128. now apply pr_r128. Qed.
Lemma G_inv a : r128 a -> a <> 0 -> G a (ginv a) = g1.
Proof.
  intros Ha N. set (e := G a (ginv a)). pose proof (ginv_r128 a Ha) as Hw.
  assert (E : e = pr 128 a) by reflexivity.
  assert (He : r128 e) by (apply G_r128; auto).
  assert (AE : G a e = a) by (rewrite E, pr_fr by auto; now apply fr_id).
  assert (I : sq e = e).
  { unfold sq. unfold e at 1. rewrite (G_comm a) by auto. rewrite G_assoc, AE by auto. now apply G_comm. }
  destruct (idempotent e He I) as [Z0|]; auto. exfalso. apply N. rewrite <- AE, Z0. now apply G_0_r.
Qed.
Lemma G_zero a b : r128 a -> r128 b -> G a b = 0 -> a = 0 \/ b = 0.
Proof.
  intros Ha Hb E. destruct (Z.eq_dec a 0) as [|N]; auto. right. pose proof (ginv_r128 a Ha) as Hw.
  rewrite <- (G_1_l b Hb), <- (G_inv a Ha N), (G_comm a) by auto. rewrite G_assoc, E by auto. now apply G_0_r.
Qed.

(** polynomials, constant coefficient first *)
Fixpoint ev (cs : list Z) (x : Z) : Z := match cs with [] => 0 | c :: cs => Z.lxor c (G x (ev cs x)) end.
Fixpoint quot (r : Z) (cs : list Z) : list Z :=
  match cs with [] => [] | c :: cs => match cs with [] => [] | _ => ev cs r :: quot r cs end end.
Lemma ev_r128 cs x : Forall r128 cs -> r128 x -> r128 (ev cs x).
Proof. intros F Hx. induction F; cbn [ev]; auto using r128_0, r128_lxor, G_r128. Qed.
Lemma quot_r128 r cs : r128 r -> Forall r128 cs -> Forall r128 (quot r cs).
Proof. intros Hr F. induction F as [|c cs Hc F IH]; cbn [quot]; auto. destruct cs; auto. constructor; auto using ev_r128. Qed.
Lemma quot_length r cs : length (quot r cs) = pred (length cs).
Proof. induction cs as [|c cs IH]; cbn [quot length pred]; auto. destruct cs; auto. cbn [length] in *. now rewrite IH. Qed.
Lemma quot_spec r x cs : r128 r -> r128 x -> Forall r128 cs ->
  Z.lxor (ev cs x) (ev cs r) = G (Z.lxor x r) (ev (quot r cs) x).
Proof.
  intros Hr Hx F. pose proof (r128_lxor x r Hx Hr) as Hxr. induction F as [|c cs Hc F IH].
  - cbn [ev quot]. now rewrite G_0_r.
  - destruct cs as [|d ds].
    + cbn [quot ev]. rewrite !G_0_r by auto. xac.
    + set (cs := d :: ds) in *. change (quot r (c :: cs)) with (ev cs r :: quot r cs). cbn [ev].
      pose proof (ev_r128 cs x F Hx). pose proof (ev_r128 cs r F Hr). pose proof (ev_r128 _ x (quot_r128 r cs Hr F) Hx) as Hq.
      rewrite G_lxor_r by auto using G_r128. rewrite <- (G_assoc (Z.lxor x r) x) by auto. rewrite (G_comm (Z.lxor x r) x) by auto.
      rewrite G_assoc, <- IH by auto. rewrite G_lxor_r, (G_lxor_l x r) by auto. xac.
Qed.
Lemma quot_zero r cs : r128 r -> Forall r128 cs -> ev cs r = 0 -> Forall (eq 0) (quot r cs) -> Forall (eq 0) cs.
Proof.
  intros Hr F. induction F as [|c cs Hc F IH]; intros E Q0; [constructor|].
  destruct cs as [|d ds].
  - cbn [ev] in E. rewrite G_0_r, Z.lxor_0_r in E by auto. constructor; auto.
  - set (cs := d :: ds) in *. change (quot r (c :: cs)) with (ev cs r :: quot r cs) in Q0. inversion Q0 as [|? ? E0 Q1]; subst.
    assert (E1 : ev cs r = 0) by (symmetry; exact E0).
    change (Z.lxor c (G r (ev cs r)) = 0) in E. rewrite E1, G_0_r, Z.lxor_0_r in E by auto. constructor; [auto | apply IH; auto].
Qed.
Theorem root_bound : forall n cs roots, length cs = n -> Forall r128 cs -> ~ Forall (eq 0) cs ->
  NoDup roots -> Forall r128 roots -> Forall (fun x => ev cs x = 0) roots -> (length roots < n)%nat.
Proof.
  induction n as [|n IH]; intros cs roots Ln F N ND R E.
  - destruct cs; [|discriminate]. exfalso. apply N. constructor.
  - destruct roots as [|r roots]; [cbn; lia|]. cbn [length].
    inversion ND as [|? ? Nin ND']; subst. inversion R as [|? ? Hr R']; subst. inversion E as [|? ? Er E']; subst.
    apply -> Nat.succ_lt_mono. apply (IH (quot r cs)); auto using quot_r128.
    + rewrite quot_length, Ln. reflexivity.
    + intros Q0. apply N. now apply (quot_zero r).
    + rewrite Forall_forall in *. intros x Hx. pose proof (quot_spec r x cs Hr (R' x Hx)) as S.
      rewrite (E' x Hx), Er, Z.lxor_nilpotent in S. symmetry in S.
      assert (Hq : r128 (ev (quot r cs) x)) by (apply ev_r128; [apply quot_r128; auto; now apply Forall_forall | now apply R']).
      destruct (G_zero (Z.lxor x r) (ev (quot r cs) x)) as [Z0|]; auto using r128_lxor.
      * apply S. now apply Forall_forall.
      * apply Z.lxor_eq in Z0. subst. contradiction.
Qed.
