(** * The unit tests of the claims pallet (claims/src/lib.rs:627-1402)

    Keccak-256 is computed. Public-key recovery on secp256k1 is a table: the signatures were made with
    the secret keys of the tests ([keccak_256(b"Alice")] …) and the keys were recovered from them by a
    program outside this development; a (signature, digest) pair that is not listed recovers nothing.
    The account type of these tests is [u64], so accounts are 8 bytes, least significant first. *)
From Coq Require Import String.
From Verif Require Import Base State Env TeerdaysModel TeerexBase SgxVerifyModel TeerexModel
  EnclaveBridgeModel SidechainModel TeeracleModel ClaimsModel AssetRegistryModel XcmTransactorModel
  Runtime WeightsModel Examples CollateralModel TextModel TestData Conformance Keccak.

(* the public key of keccak_256("Alice") *)
Definition pk_alice : bytes :=
  hx "68f40367f11ae84e12aa6b28af7431e0aad296c6119c1dcd06ec5a4de5d039bc04a237430886c45380c79a4971f940ef280cb9fb03d2f133e48c07ff59b5807d"%string.
(* the public key of keccak_256("Bob") *)
Definition pk_bob : bytes :=
  hx "5791a78e60d010647d19422d08b60f88c9fbb973bb0e877ce0d8a93f661f5ceae7c242a598cb135ce11ccdf8ada15e0a50420e58554092578819dafc0565ce4f"%string.
(* the public key of keccak_256("Dave") *)
Definition pk_dave : bytes :=
  hx "6e1f94c006baed931e9933f47fb883fd2533944ac4223e46e224fea7148ce51c7de649561473204b35a9348f8d39bfb94def4710097fdf8f4ab8ba7370557447"%string.
(* the public key of keccak_256("Eve") *)
Definition pk_eve : bytes :=
  hx "3b80a8ebfdd256e282d5b5bd771fb3b8beb13597aa589cadef20b3200f8d4134d93208302ca5ac85e6f30dde85092d2126c17986d72921ba855120188309db07"%string.
(* the public key of keccak_256("Frank") *)
Definition pk_frank : bytes :=
  hx "7b192a679c3245ce1424f28ceccdadc24645b56ed429107649a499442d0fffdff86b248b8b5e7c015e78c847438fb02f475997badde6969455a84320da69813f"%string.
Definition sig_alice_42 : bytes :=
  hx "96eeb679b61b096ed6893b5546232fde56efbaea54a30c7cf4aff55fbd94d3ff4b17b565055322a9222c0caeda2234acc8b705a9873239ec899c889de0eb39db00"%string.
Definition sig_bob_42 : bytes :=
  hx "1638a70e8bb9771a4b00bd1f0984d3a3871f5f480aaca4ce932d7c3b746232345d760ab238534cad0053796e8bedd831dcc018fc949c253e4280614b7521a83900"%string.
Definition sig_bob_42_reg : bytes :=
  hx "cfee24c123138f7594f3a94bfd1adad3982f2d521380c59afd51ec37a944856d57315ed9fedd33c7fd182a94f1aea9843c70acb55b7f0972357f4ebb4e25b11e01"%string.
Definition sig_dave_42 : bytes :=
  hx "67c6e88d444f6fc51ea15f43c428fa43a7127574ea8af68f5f06ec4946e85c7c3a5a317f4b5364acecfdaa722a3803a14d08eba18f387644f0bfd379921e9ee401"%string.
Definition sig_eve_42 : bytes :=
  hx "53f2a89c9efa88fdbc08aee3654ea8dfb448be5e5214f919a1634ff1acac197b390ec4d41b6fb927cd853a013cacdd3d0db4ce7c8c178ddecab14d30278fbd3400"%string.
Definition sig_frank_42 : bytes :=
  hx "c5be2edbab598befa1128f69433083b319af4386a2c06f5ccefe8fdcc0375e0c748d78a50a1d2d77ccb067cd3295f7fc82aa27f614684b389eac55b44a28a14401"%string.
Definition sig_dave_42_saft : bytes :=
  hx "856c280ca2180ce5f3ab2e34fb9cfe3b58f230e163b079f9db7d3d6c6d14e50751aa2af615379aee2514d6fc3800d5586f6af83b164d3fb3489c632217447f0000"%string.
Definition sig_dave_42_reg : bytes :=
  hx "7be3bab07227a08b640853394f966224f6444bcfe97af6f6512819b6b2a53e1871906dd91ee0e8a02d4b490192f26712b6b8932e972fae8fa068ecde560f95f701"%string.
Definition sig_bob_69 : bytes :=
  hx "b44d948ed4d360f925d9ec461a94d3fc580b25e7f74868979c04d8cc9a1774d359e80185c066cb708c24732d912c8b5c747d054bf8c2570204771f8b8c7135ae00"%string.
Definition sig_bob_69_reg : bytes :=
  hx "2a92a0de483443128d9b1551fb9f6b79d7af0809fbffb7ff50bc1cb4b3e7463114a8fe631ae1ae666c060dac395f2327c79bfa49652960417a3f3949b66bfcaf01"%string.
Definition sig_alice_69 : bytes :=
  hx "cfdf03e72a18775bdd11e8dfae5860b0f32f261d740f4a18100897955a93bbb476a6b800240f0442a34d4e6cfcf126d2a36432b46625e50748aac2c2d2e07ede00"%string.
Definition sig_alice_1 : bytes :=
  hx "1f886087892f357e24d84401fe7439fc63490b35e07ed5bf5e3d7704ea84b8134e5260341815e7286dffdb861990a25f5835e47b952a9b7adcecd40ce8d0f91101"%string.
Definition sig_bob_1 : bytes :=
  hx "e3567d906d59b2945b3a6680f6787abca3bfe21bcd2abf1dfe063c487fad18a06617e80217c5d888a527115a970ffe75a9cdeba06d8a4a2581609296a58362a601"%string.
Definition sig_dave_1_reg : bytes :=
  hx "8c02ecf482754f4a7891d5d171408c61f73c2ee8925fcd4e8dcaf8d29de5bbd84866ff86e5d171c08a399bfc7f9bd338fb5bc91a25ec5a56d59ff18d552d252501"%string.
Definition sig_bob_1_reg : bytes :=
  hx "a8c855e84443b27e553010335803ea5712c712dcd910bf0cf409d8175dec6a647baaab2ba8b1b5e5a0d339f1d263c3482367622b3e25d580b9a12f8bc4f529fa00"%string.
Definition sig_dave_1_saft : bytes :=
  hx "5d4f111466a2a48df11c152f21ff3eb12b932786b629fb71fb324aaf331cfaab1202d66062ea9d83be3a39a7481a169d82f334ffbf21aef54a3ea718b8ccbc9500"%string.
Definition sig_real : bytes :=
  hx "444023e89b67e67c0562ed0305d252a5dd12b2af5ac51d6d3cb69a0b486bc4b3191401802dc29d26d586221f7256cd3329fe82174bdf659baea149a40e1c495d1c"%string.
Definition secp_table : list (bytes * bytes * bytes) :=
  [(sig_alice_42, hx "4a7d66374a9f919da39931c9bfc0853f8ed0a0a3596b00febae3c4c3369c58af", pk_alice);
   (sig_bob_42, hx "4a7d66374a9f919da39931c9bfc0853f8ed0a0a3596b00febae3c4c3369c58af", pk_bob);
   (sig_bob_42_reg, hx "2b6d3a0b120cb35051f950029e79357ba2fedcfd8366d95610c4803aaebce268", pk_bob);
   (sig_dave_42, hx "4a7d66374a9f919da39931c9bfc0853f8ed0a0a3596b00febae3c4c3369c58af", pk_dave);
   (sig_eve_42, hx "4a7d66374a9f919da39931c9bfc0853f8ed0a0a3596b00febae3c4c3369c58af", pk_eve);
   (sig_frank_42, hx "4a7d66374a9f919da39931c9bfc0853f8ed0a0a3596b00febae3c4c3369c58af", pk_frank);
   (sig_dave_42_saft, hx "b36948a13894da56975d03097388e592cfef6b86651037ada881c11bf06c40dc", pk_dave);
   (sig_dave_42_reg, hx "2b6d3a0b120cb35051f950029e79357ba2fedcfd8366d95610c4803aaebce268", pk_dave);
   (sig_bob_69, hx "5665438b2d53597a2a73f9f416ad44d43a32094ecd625df1e7fb9814c568e479", pk_bob);
   (sig_bob_69_reg, hx "65f3ed4df5908fc8169cc4917430bea53104f00476977702fd08afc094a76a09", pk_bob);
   (sig_alice_69, hx "5665438b2d53597a2a73f9f416ad44d43a32094ecd625df1e7fb9814c568e479", pk_alice);
   (sig_alice_1, hx "ec762bc21989ba7c7d6abfbc359a40f62713d18bb520ee41aaee3bdaf77dfc60", pk_alice);
   (sig_bob_1, hx "ec762bc21989ba7c7d6abfbc359a40f62713d18bb520ee41aaee3bdaf77dfc60", pk_bob);
   (sig_dave_1_reg, hx "bb068257edbb17623c35469d714c5ad306575341fc1696f89edf521b8960ac6d", pk_dave);
   (sig_bob_1_reg, hx "bb068257edbb17623c35469d714c5ad306575341fc1696f89edf521b8960ac6d", pk_bob);
   (sig_dave_1_saft, hx "b20ae514827557e1653e744f0dab7190dd62ce89682822aa6276d26362de26bb", pk_dave);
   (sig_dave_42_saft, hx "2b6d3a0b120cb35051f950029e79357ba2fedcfd8366d95610c4803aaebce268",
     hx "923c8f6b08bf8cf418378e18e8d74b876734c9ac9d0ca9bde994ab6b3307a6b7d521fd99162af3aace94c592c54fab12e9028114be70e8d77933b7c815cf684e");
   (sig_bob_69_reg, hx "5665438b2d53597a2a73f9f416ad44d43a32094ecd625df1e7fb9814c568e479",
     hx "39cc97830096373f29d8c297cc7e62f4524e83d76165976dedb9224682674fc6f9f1297567bf5ed031c495d2dfac48a5292152b10ec3bba97013fc294a05289c");
   (sig_alice_69, hx "4a7d66374a9f919da39931c9bfc0853f8ed0a0a3596b00febae3c4c3369c58af",
     hx "2145acf1f77e737c62ddc5fe08f511cf8bebcda792a13848cf760a5d9afeb8bc63bc401f2092101261f45ab5d549baf32f57e860ae2c5f75601a5d69d2c85bc6");
   (sig_bob_69, hx "4a7d66374a9f919da39931c9bfc0853f8ed0a0a3596b00febae3c4c3369c58af",
     hx "ecc937ab00c774cf9ce7fb96cade6b287ecf06f1bb6c422d3d7a36e64048bbe5211fd460a581b77afafe8906576035844321c92f5f413d000c285d1716964e61");
   (sig_dave_1_saft, hx "bb068257edbb17623c35469d714c5ad306575341fc1696f89edf521b8960ac6d",
     hx "162547b613f229133969c088f7f1367f0cc54deba9c72c16b614319c74f97ee314423120a3fda512d3e358a2d696b143857638a8bd9723ef9e0f0a795118838a");
   (sig_real, hx "4a7d66374a9f919da39931c9bfc0853f8ed0a0a3596b00febae3c4c3369c58af",
     hx "5b0e6d9e3f3714d9028cf2194babd4660723a8821ab13fe5f578668d4ce63bd22944bae3f6a8f0ce21934e61f0ba1185d06fac7602339a47caa38fead6397e3a")]%string.

Definition secp_lookup (sig digest : bytes) : option bytes :=
  match List.find (fun r => beq r.1.1 sig && beq r.1.2 digest) secp_table with Some r => Some r.2 | None => None end.
Definition eth (pk : bytes) : bytes := dropN 12 (keccak256 pk).
Definition eth_alice : bytes := Eval vm_compute in eth pk_alice.
Definition eth_bob : bytes := Eval vm_compute in eth pk_bob.
Definition eth_dave : bytes := Eval vm_compute in eth pk_dave.
Definition eth_eve : bytes := Eval vm_compute in eth pk_eve.
Definition eth_frank : bytes := Eval vm_compute in eth pk_frank.
Definition id64 (n : N) : acct := le_bytes 8 n.

(** claims/src/lib.rs:695-746, 765-783 *)
Definition cl_cfg : cfg :=
  mkCfg true 1 u64_max u32_max 86400000 86400000 172800000 10 4096 (asc "Pay RUSTs to the TEST account:")
        (fun o => match o with Signed a => beq a (id64 6) | _ => false end) (fun _ => false)
        (fun _ => false) 0 0 0 keccak256 secp_lookup (fun _ => inr []) sgx_permissive.
Definition cl_ext : rt :=
  genesis_state (mkGenesis 0 ∅
    [(eth_alice, 100, None, None); (eth_dave, 200, None, Some StRegular);
     (eth_eve, 300, Some (id64 42), Some StSaft); (eth_frank, 400, Some (id64 43), None)]
    [(eth_alice, (50, 10, 1))] true true ∅).
Definition cl_test (l : list line) : bool := test cl_cfg l cl_ext.
Definition free_of (n v : N) : line := Check (fun s => free s (id64 n) =? v).
Definition total_is (v : N) : line := Check (fun s => cl_total (rt_cl s) =? v).
(** [Vesting::vesting_balance]: what is still locked, at most the balance *)
Definition vesting_balance (n : N) (v : option N) : line :=
  Check (fun s => bool_decide (v = match rt_vest s !! id64 n with
                                   | Some l => Some (N.min (free s (id64 n)) (foldr (fun x acc => locked_at x (rt_blk s) + acc) 0 l))
                                   | None => None
                                   end)).
Definition claim_ok (n : N) (sig : bytes) : line := Ok_ NoneO (CCl (ClClaim (id64 n) sig)).
Definition claim_err (n : N) (sig : bytes) (e : error) : line := ErrIs NoneO (CCl (ClClaim (id64 n) sig)) e.
Definition attest_ok (n : N) (sig : bytes) (t : bytes) : line := Ok_ NoneO (CCl (ClClaimAttest (id64 n) sig t)).
Definition attest_err (n : N) (sig : bytes) (t : bytes) (e : error) : line := ErrIs NoneO (CCl (ClClaimAttest (id64 n) sig t)) e.
Definition move (n : N) (a b : bytes) (p : option N) : call := CCl (ClMove a b (option_map id64 p)).
Definition saft := to_text StSaft.
Definition regular := to_text StRegular.

(** claims/src/lib.rs:789-800 *)
Example t_basic_setup_works :
  cl_test [total_is 1000;
           Check (fun s => bool_decide (map (fun a => cl_claims (rt_cl s) !! a) [eth_alice; eth_dave; eth_eve; eth_frank; zeros 20]
                                        = [Some 100; Some 200; Some 300; Some 400; None])
                           && bool_decide (cl_vesting (rt_cl s) !! eth_alice = Some (50, 10, 1)))] = true.
Proof. vm_compute. reflexivity. Qed.
(** claims/src/lib.rs:802-809; the JSON quotes are not part of [eth_serialize] *)
Example t_serde_works :
  let x := hx "0123456789abcdef0123456789abcdef01234567" in
  bool_decide (eth_serialize x = asc "0x0123456789abcdef0123456789abcdef01234567")
  && match eth_deserialize (eth_serialize x) with PAddress z => beq x z | _ => false end = true.
Proof. vm_compute. reflexivity. Qed.
(** claims/src/lib.rs:811-824 *)
Example t_claiming_works :
  cl_test [free_of 42 0; claim_ok 42 sig_alice_42; free_of 42 100; vesting_balance 42 (Some 50); total_is 900] = true.
Proof. vm_compute. reflexivity. Qed.
(** claims/src/lib.rs:826-857 *)
Example t_basic_claim_moving_works :
  cl_test [free_of 42 0; ErrIs (Signed (id64 1)) (move 0 eth_alice eth_bob None) BadOrigin;
           Ok_ (Signed (id64 6)) (move 0 eth_alice eth_bob None);
           claim_err 42 sig_alice_42 SignerHasNoClaim; claim_ok 42 sig_bob_42;
           free_of 42 100; vesting_balance 42 (Some 50); total_is 900] = true.
Proof. vm_compute. reflexivity. Qed.
(** claims/src/lib.rs:859-877 *)
Example t_claim_attest_moving_works :
  cl_test [Ok_ (Signed (id64 6)) (move 0 eth_dave eth_bob None); attest_ok 42 sig_bob_42_reg regular; free_of 42 200] = true.
Proof. vm_compute. reflexivity. Qed.
(** claims/src/lib.rs:879-894 *)
Example t_attest_moving_works :
  cl_test [Ok_ (Signed (id64 6)) (move 0 eth_eve eth_bob (Some 42)); Ok_ (Signed (id64 42)) (CCl (ClAttest saft)); free_of 42 300] = true.
Proof. vm_compute. reflexivity. Qed.
(** claims/src/lib.rs:896-926 *)
Example t_claiming_does_not_bypass_signing :
  cl_test [claim_ok 42 sig_alice_42; claim_err 42 sig_dave_42 InvalidStatement;
           claim_err 42 sig_eve_42 InvalidStatement; claim_ok 42 sig_frank_42] = true.
Proof. vm_compute. reflexivity. Qed.
(** claims/src/lib.rs:928-970 *)
Example t_attest_claiming_works :
  cl_test [free_of 42 0; attest_err 42 sig_dave_42_saft saft InvalidStatement;
           attest_err 42 sig_dave_42_saft regular SignerHasNoClaim;
           attest_ok 42 sig_dave_42_reg regular; free_of 42 200; total_is 800;
           attest_err 42 sig_dave_42_reg regular SignerHasNoClaim] = true.
Proof. vm_compute. reflexivity. Qed.
(** claims/src/lib.rs:972-994 *)
Example t_attesting_works :
  cl_test [free_of 42 0; ErrIs (Signed (id64 69)) (CCl (ClAttest saft)) SenderHasNoClaim;
           ErrIs (Signed (id64 42)) (CCl (ClAttest regular)) InvalidStatement;
           Ok_ (Signed (id64 42)) (CCl (ClAttest saft)); free_of 42 300; total_is 700] = true.
Proof. vm_compute. reflexivity. Qed.
(** claims/src/lib.rs:996-1015 *)
Example t_claim_cannot_clobber_preclaim :
  cl_test [free_of 42 0; claim_ok 42 sig_alice_42; free_of 42 100;
           Ok_ (Signed (id64 42)) (CCl (ClAttest saft)); free_of 42 400; total_is 600] = true.
Proof. vm_compute. reflexivity. Qed.
(** claims/src/lib.rs:1017-1049 *)
Example t_attest_transactions :
  negb (declared_pays (CCl (ClAttest saft)))
  && match prevalidate cl_ext (id64 42) (ClAttest saft) with None => true | Some _ => false end
  && match prevalidate cl_ext (id64 42) (ClAttest regular) with None => false | Some _ => true end
  && match prevalidate cl_ext (id64 69) (ClAttest saft) with None => false | Some _ => true end = true.
Proof. vm_compute. reflexivity. Qed.
(** claims/src/lib.rs:1051-1059 *)
Example t_cannot_bypass_attest_claiming :
  cl_test [free_of 42 0; claim_err 42 sig_dave_42 InvalidStatement] = true.
Proof. vm_compute. reflexivity. Qed.
(** claims/src/lib.rs:1061-1088 *)
Example t_add_claim_works :
  cl_test [ErrIs (Signed (id64 42)) (CCl (ClMint eth_bob 200 None None)) BadOrigin; free_of 42 0;
           claim_err 69 sig_bob_69 SignerHasNoClaim; Ok_ Root (CCl (ClMint eth_bob 200 None None)); total_is 1200;
           claim_ok 69 sig_bob_69; free_of 69 200; vesting_balance 69 None; total_is 1000] = true.
Proof. vm_compute. reflexivity. Qed.
(** claims/src/lib.rs:1090-1138: 180 of 200 cannot be moved while 50 are vesting *)
Example t_add_claim_with_vesting_works :
  cl_test [ErrIs (Signed (id64 42)) (CCl (ClMint eth_bob 200 (Some (50, 10, 1)) None)) BadOrigin; free_of 42 0;
           claim_err 69 sig_bob_69 SignerHasNoClaim;
           Ok_ Root (CCl (ClMint eth_bob 200 (Some (50, 10, 1)) None));
           claim_ok 69 sig_bob_69; free_of 69 200; vesting_balance 69 (Some 50);
           RunOk (fun s => match transfer cl_cfg (id64 69) (id64 80) 180 s with Err Frozen _ => Ok tt s | _ => Panic end)] = true.
Proof. vm_compute. reflexivity. Qed.
(** claims/src/lib.rs:1140-1182 *)
Example t_add_claim_with_statement_works :
  cl_test [ErrIs (Signed (id64 42)) (CCl (ClMint eth_bob 200 None (Some StRegular))) BadOrigin; free_of 42 0;
           attest_err 69 sig_bob_69_reg regular SignerHasNoClaim;
           Ok_ Root (CCl (ClMint eth_bob 200 None (Some StRegular)));
           attest_err 69 sig_bob_69_reg [] SignerHasNoClaim;
           attest_ok 69 sig_bob_69_reg regular; free_of 69 200] = true.
Proof. vm_compute. reflexivity. Qed.
(** claims/src/lib.rs:1184-1197 *)
Example t_origin_signed_claiming_fail :
  cl_test [free_of 42 0; ErrIs (Signed (id64 42)) (CCl (ClClaim (id64 42) sig_alice_42)) BadOrigin] = true.
Proof. vm_compute. reflexivity. Qed.
(** claims/src/lib.rs:1199-1217 *)
Example t_double_claiming_doesnt_work :
  cl_test [free_of 42 0; claim_ok 42 sig_alice_42; claim_err 42 sig_alice_42 SignerHasNoClaim] = true.
Proof. vm_compute. reflexivity. Qed.
(** claims/src/lib.rs:1219-1259 *)
Example t_claiming_while_vested_doesnt_work :
  let put v := Put (fun s => put_free (id64 69) v s) in
  cl_test [put 1; RunOk (fun s => match add_vesting_schedule (id64 69) 1000 100 10 s with Ok true s => Ok tt s | _ => Panic end);
           put 1000; free_of 69 1000; Ok_ Root (CCl (ClMint eth_bob 200 (Some (50, 10, 1)) None)); total_is 1200;
           claim_err 69 sig_bob_69 VestedBalanceExists] = true.
Proof. vm_compute. reflexivity. Qed.
(** claims/src/lib.rs:1261-1289: the recovered signers are some other keys *)
Example t_non_sender_sig_and_non_claimant_dont_work :
  cl_test [free_of 42 0; claim_err 42 sig_alice_69 SignerHasNoClaim; claim_err 42 sig_bob_69 SignerHasNoClaim] = true.
Proof. vm_compute. reflexivity. Qed.
(** claims/src/lib.rs:1291-1301: a signature made with a real Ethereum wallet *)
Example t_real_eth_sig_works :
  match eth_recover cl_cfg sig_real (to_ascii_hex (id64 42)) [] with
  | Some a => beq a (hx "6d31165d5d932d571f3b44695653b46dcc327e84") | None => false end = true.
Proof. vm_compute. reflexivity. Qed.
(** claims/src/lib.rs:1303-1402; priority, longevity and propagation are constants of the code *)
Definition validity (x : cl_call) : validity_error + bytes := validate_unsigned cl_cfg cl_ext x.
Definition tag (a : bytes) : bytes := 24 :: asc "claims" ++ a.
Definition same (x y : validity_error + bytes) : bool :=
  match x, y with
  | inr a, inr b => beq a b
  | inl VInvalidSignature, inl VInvalidSignature | inl VSignerHasNoClaim, inl VSignerHasNoClaim
  | inl VInvalidStatement, inl VInvalidStatement | inl VNotUnsigned, inl VNotUnsigned => true
  | _, _ => false
  end.
Example t_validate_unsigned_works :
  forallb (fun p => same (validity p.1) p.2)
    [(ClClaim (id64 1) sig_alice_1, inr (tag eth_alice));
     (ClClaim (id64 0) (zeros 65), inl VInvalidSignature);
     (ClClaim (id64 1) sig_bob_1, inl VSignerHasNoClaim);
     (ClClaimAttest (id64 1) sig_dave_1_reg regular, inr (tag eth_dave));
     (ClClaimAttest (id64 1) (zeros 65) regular, inl VInvalidSignature);
     (ClClaimAttest (id64 1) sig_bob_1_reg regular, inl VSignerHasNoClaim);
     (ClClaimAttest (id64 1) sig_dave_1_saft regular, inl VSignerHasNoClaim);
     (ClClaimAttest (id64 1) sig_dave_1_saft saft, inl VInvalidStatement)] = true.
Proof. vm_compute. reflexivity. Qed.
