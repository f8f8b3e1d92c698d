(** * KAT.v -- GENERATED by scripts/gen_kat.py from the LWC*.txt files in
    /repo.  Replays a sample of the known-answer vectors against the
    specification [Spec.v].  These are tests that the specification is the
    intended function; they are not proofs of any property. *)
From Coq Require Import Arith NArith List String Ascii Bool Init.Byte Strings.Byte.
From Verif Require Import Words Spec SpecFast.
Import ListNotations.
Open Scope string_scope.

Definition hexval (c : ascii) : N :=
  let n := N_of_ascii c in
  if (n <? 58)%N then (n - 48)%N else (n - 55)%N.
Fixpoint hex (s : string) : bytes :=
  match s with
  | String a (String b r) => n2b (16 * hexval a + hexval b)%N :: hex r
  | _ => []
  end.
Definition beqb (a b : bytes) : bool := if list_eq_dec Byte.byte_eq_dec a b then true else false.

Definition kat_aead : list (string * string * string * string * string) := [
("000102030405060708090A0B0C0D0E0F","101112131415161718191A1B1C1D1E1F","","","4F9C278211BEC9316BF68F46EE8B2EC6");
("000102030405060708090A0B0C0D0E0F","101112131415161718191A1B1C1D1E1F","30","","CCCB674FE18A09A285D6AB11B35675C0");
("000102030405060708090A0B0C0D0E0F","101112131415161718191A1B1C1D1E1F","30","20","962B8016836C75A7D86866588CA245D886");
("000102030405060708090A0B0C0D0E0F","101112131415161718191A1B1C1D1E1F","30313233","202122232425262728292A2B","CF5337FCB70EC45D179E0C3F4866C3547E2FC9E659C09D56FF266F17");
("000102030405060708090A0B0C0D0E0F","101112131415161718191A1B1C1D1E1F","3031323334","202122232425262728292A2B2C2D2E","3076658CBA8BF3BB6DCCAA2F1255EE535DE9380C3895D2F561D8A3D58080F6");
("000102030405060708090A0B0C0D0E0F","101112131415161718191A1B1C1D1E1F","3031323334353637","202122232425262728292A2B2C2D2E2F3031323334353637","FABE2CB1E7EBA6329A30080F26E7DC72503D2E3CCE7C9F5BE8BE8680030C5A15A9728E64A3900373")].
Definition check_aead (x : string * string * string * string * string) : bool :=
  let '(k, n, ad, m, c) := x in
  beqb (aead_encrypt (hex k) (hex n) (hex ad) (hex m)) (hex c) &&
  match aead_decrypt (hex k) (hex n) (hex ad) (hex c) with
  | Some m' => beqb m' (hex m) | None => false end.
Example kat_aead_ok : forallb check_aead kat_aead = true.
Proof. cbv beta iota delta [forallb kat_aead check_aead]. rewrite ?f_aead_encrypt, ?f_aead_decrypt. vm_compute. reflexivity. Qed.

Definition kat_hash : list (string * string * string) := [
("","","0B3BE5850F2F6B98CAF29F8FDEA89B64A1FA70AA249B8F839BD53BAA304D92B2");
("0001020304050607","","B88E497AE8E6FB641B87EF622EB8F2FCA0ED95383F7FFEBE167ACF1099BA764F");
("000102030405060708090A0B0C0D0E0F10","","F149E99DD0F429599BB89B8079BF3F4DCA3F298EFEFCF9B1EA16FE84F9B8B6E2")].
Definition check_hash (x : string * string * string) : bool :=
  let '(a, b, d) := x in beqb (hash256 (hex a)) (hex d).
Example kat_hash_ok : forallb check_hash kat_hash = true.
Proof. cbv beta iota delta [forallb kat_hash check_hash]. rewrite !f_hash256. vm_compute. reflexivity. Qed.

Definition kat_xof : list (string * string * string) := [
("","","473D5E6164F58B39DFD84AACDB8AE42EC2D91FED33388EE0D960D9B3993295C6AD77855A5D3B13FE6AD9E6098988373AF7D0956D05A8F1665D2C67D1A3AD10FF");
("00010203040506","","7AE562DB37212A9ACD2673ECFD5B4F1C5CB2E6F64EBF00AA7F6EF8DC82C448D5FE11CD91F4368C37690D79E5DE0CA8AD419E1918CE8DAB2D42363E9476638A7B")].
Definition check_xof (x : string * string * string) : bool :=
  let '(a, b, d) := x in beqb (xof128 (hex a) 64) (hex d).
Example kat_xof_ok : forallb check_xof kat_xof = true.
Proof. cbv beta iota delta [forallb kat_xof check_xof]. rewrite !f_xof128. vm_compute. reflexivity. Qed.

Definition kat_cxof : list (string * string * string) := [
("","","4F50159EF70BB3DAD8807E034EAEBD44C4FA2CBBC8CF1F05511AB66CDCC529905CA12083FC186AD899B270B1473DC5F7EC88D1052082DCDFE69FB75D269E7B74");
("","101112131415161718","32FDE6B9D290F56FC74AAC9368F32C69973E1BAB35D96118DB7181AAE577687673C01A9E35327ADED556987EED3441D4F42EC36B0C198498D9E7F357B948D560");
("00010203040506","101112131415161718191A1B1C1D1E1F202122232425262728292A2B2C","1C49AF2668E1A098E618BC29D3C258D06839F13A376A8C4A978B87D879A201FBEBFAF1175A6630F385E1ED1A72D6AAD7E6443AE25FF4883B25B590A140D11B60")].
Definition check_cxof (x : string * string * string) : bool :=
  let '(a, b, d) := x in beqb (cxof128 (hex a) (hex b) 64) (hex d).
Example kat_cxof_ok : forallb check_cxof kat_cxof = true.
Proof. cbv beta iota delta [forallb kat_cxof check_cxof]. rewrite !f_cxof128. vm_compute. reflexivity. Qed.

Definition kat_mac : list (string * string * string) := [
("000102030405060708090A0B0C0D0E0F","","EAC9D74BBEDF8BF1EBA2862B26AA6D39");
("000102030405060708090A0B0C0D0E0F","101112131415161718191A1B1C1D1E1F202122232425262728292A2B2C2D2E","698DBB2466879F9B9D01AE4EF6DEB268");
("000102030405060708090A0B0C0D0E0F","101112131415161718191A1B1C1D1E1F202122232425262728292A2B2C2D2E2F","9B103257685DDE6FD994426172BF7B64");
("000102030405060708090A0B0C0D0E0F","101112131415161718191A1B1C1D1E1F202122232425262728292A2B2C2D2E2F30","29313284670B54F0564F9C73F27131F1")].
Definition check_mac (x : string * string * string) : bool :=
  let '(a, b, d) := x in beqb (mac (hex a) (hex b) 16) (hex d).
Example kat_mac_ok : forallb check_mac kat_mac = true.
Proof. cbv beta iota delta [forallb kat_mac check_mac]. rewrite !f_mac. vm_compute. reflexivity. Qed.

Definition kat_prf : list (string * string * string) := [
("000102030405060708090A0B0C0D0E0F","","BB4BBCF377694C09008CF5D78389FEE6E2FD7E7A21009AB94871F0639481F195E0CF1FFD2EA4A308C364B577A6A240045F5BF137E4A556C9C74AA36D80811587");
("000102030405060708090A0B0C0D0E0F","101112131415161718191A1B1C1D1E1F202122232425262728292A2B2C2D2E2F","7C0A535CAC86F71DBE2C9E3A5F44CAF9FD9FAA4E714F88835A261761D4445D5AA7F82B7D2F2EDE73EE7BBE8131BB5D23EAED666D980B2CF9868D380DB77612A8")].
Definition check_prf (x : string * string * string) : bool :=
  let '(a, b, d) := x in beqb (prf (hex a) (hex b) 64) (hex d).
Example kat_prf_ok : forallb check_prf kat_prf = true.
Proof. cbv beta iota delta [forallb kat_prf check_prf]. rewrite !f_prf. vm_compute. reflexivity. Qed.

Definition kat_prfs : list (string * string * string) := [
("000102030405060708090A0B0C0D0E0F","","B31643D698DFA8B8FA2904AF5D1DAEEF");
("000102030405060708090A0B0C0D0E0F","10","6DB84E534636F21F860483E9C5B8D298");
("000102030405060708090A0B0C0D0E0F","1011121314151617","8C21BBA35D2B11D745B7A90CD9E48A8D");
("000102030405060708090A0B0C0D0E0F","101112131415161718","732176B12F40845C52CE4F66A95B4A85")].
Definition check_prfs (x : string * string * string) : bool :=
  let '(a, b, d) := x in beqb (prf_short (hex a) (hex b) 16) (hex d).
Example kat_prfs_ok : forallb check_prfs kat_prfs = true.
Proof. cbv beta iota delta [forallb kat_prfs check_prfs]. rewrite !f_prf_short. vm_compute. reflexivity. Qed.
