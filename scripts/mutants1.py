import json
M=[]
def mu(file,defn,old,new,edit,claim,**k):
    M.append(dict(id='M%03d'%(len(M)+1),file=file,definition=defn,old=old,new=new,edit=edit,claim=claim,**k))
R='ModelRef.v'
mu(R,'ref_enc','ASCON_128A_RATE <=? mlen','ASCON_128A_RATE <? mlen','block loop runs while mlen > 16 instead of >= 16','C01 C03: a 16-byte message is padded in the wrong block')
mu(R,'ref_adata','ASCON_128A_RATE <=? adlen','ASCON_128A_RATE <? adlen','ad loop runs while adlen > 16','C01 C02: wrong tag when adlen is a multiple of 16')
mu(R,'ref_adata','b <- branch (negb (adlen =? 0)) ;;','b <- branch true ;;','empty associated data is padded and permuted','C01 C30: wrong ciphertext for adlen = 0')
mu(R,'ref_adata','ret (xor4 s DSEP)','ret s','domain separation bit dropped','C01 C30')
mu(R,'ref_enc','ret (xor1 s (PAD (sub64 mlen 8)))','ret (xor1 s (PAD mlen))','pad byte index not reduced by 8','C01')
mu(R,'ref_enc','STOREBYTES c8 (X1 s) (sub64 mlen 8)','STOREBYTES c8 (X1 s) 8','partial block stores full 8 bytes (hidden by the tag unless mlen wrong)','C01 C09 C10: transient over-write, later covered by tag bytes')
mu(R,'ref_dec','STOREBYTES m8 (N.lxor (X1 s) c1) (sub64 clen 8)','STOREBYTES m8 (N.lxor (X1 s) c1) 8','partial block writes past the plaintext','C09 C10')
mu(R,'ref_dec','let s := set0 s (CLEARBYTES (X0 s) clen) in','','CLEARBYTES dropped in last block','C02 C03')
mu(R,'ref_dec_body','let s := set1 s c1 in','','second ciphertext word not put in the state','C02 C03')
mu(R,'ref_dec_body','let s := set0 s c0 in\n  let s := set1 s c1 in','let s := set0 s c1 in\n  let s := set1 s c0 in','ciphertext words swapped','C02 C03')
mu(R,'ref_final','let s := xor2 s K0 in\n  let s := xor3 s K1 in','let s := xor2 s K1 in\n  let s := xor3 s K0 in','key words swapped in finalisation','C01 C02')
mu(R,'ref_final','let s := P12 s in','let s := P8 s in','8 rounds in finalisation','C01')
mu(R,'ref_init','let s := xor4 s K1 in','','second key word not added after initialisation','C01')
mu(R,'crypto_aead_encrypt','(add64 mlen CRYPTO_ABYTES)','mlen','*clen does not include the tag','C08')
mu(R,'crypto_aead_decrypt','branch (clen <? CRYPTO_ABYTES)','branch (clen <=? CRYPTO_ABYTES)','clen = 16 rejected','C03 C02: empty plaintext does not decrypt')
mu(R,'crypto_aead_decrypt','branch (clen <? CRYPTO_ABYTES)','branch (clen <? 8)','clen 8..15 not rejected','C06 C09')
mu(R,'crypto_aead_decrypt','  b <- branch (clen <? CRYPTO_ABYTES) ;;\n  if b : bool then ret (-1)%Z else\n  store_ull e mlen (sub64 clen CRYPTO_ABYTES) ;;;','  store_ull e mlen (sub64 clen CRYPTO_ABYTES) ;;;\n  b <- branch (clen <? CRYPTO_ABYTES) ;;\n  if b : bool then ret (-1)%Z else','*mlen written before the length check','C06')
mu(R,'crypto_aead_decrypt','ret (verdict r)','ret 0%Z','tag ignored','C04 C02')
mu(R,'crypto_aead_decrypt','STOREBYTES_local (X3 s) 8 ++ STOREBYTES_local (X4 s) 8','STOREBYTES_local (X3 s) 8 ++ STOREBYTES_local (X4 s) 7','only 15 tag bytes compared','C04')
mu(R,'diff_loop','N.lor r (N.lxor','N.lxor r (N.lxor','tag differences combined with xor','C04')
mu(R,'verdict','Z.shiftr (Z.of_N r - 1) 8','Z.shiftr (Z.of_N r - 1) 7','shift by 7','C04 C29: differences >= 129 read as equal',)
mu(R,'STOREBYTES','for_loop (N.to_nat n) 0','for_loop (S (N.to_nat n)) 0','one byte too many stored','C09 C10')
mu(R,'LOADBYTES','for_loop (N.to_nat n) 0','for_loop (S (N.to_nat n)) 0','one byte too many read','C09')
mu(R,'ROR','(N.land (64 - n) 63)','(N.land (63 - n) 63)','wrong left shift','C23')
mu(R,'ROUND','(ROR t4 7)','(ROR t4 8)','x4 rotated by 8','C23 C01')
mu(R,'ROUND','let t2 := notw 64 t2 in','','S-box complement dropped','C23')
mu(R,'P8','ROUND s 0x96','ROUND s 0x95','wrong round constant','C23')
mu(R,'P6','ROUND s 0x5a','ROUND s 0x5b','wrong round constant (P6 is unused by the API)','C23')
mu(R,'ref_squeeze','ASCON_HASH_RATE <? len','ASCON_HASH_RATE <=? len','squeeze loop runs while len >= 8: extra permutation, empty last block','C13 (output equal when store of 0 bytes follows; claim true)')
mu(R,'ref_absorb','let s := xor0 s (PAD len) in','','message padding dropped','C13 C14 C15')
mu(R,'ref_absorb','ASCON_HASH_RATE <=? len','ASCON_HASH_RATE <? len','absorb while len > 8','C13')
mu(R,'crypto_cxof','(cslen * 8)','cslen','customisation length in bytes','C15')
mu(R,'crypto_cxof','s <- ref_absorb s cs cslen ;;\n  s <- ref_absorb s inp inlen ;;','s <- ref_absorb s inp inlen ;;\n  s <- ref_absorb s cs cslen ;;','message absorbed before customisation','C15')
mu(R,'crypto_hash_xof128','64','32','xof output 32 bytes','C14 C08')
mu(R,'ref_prf_absorb_body','i + 1 =? 4','i + 1 =? 3','input rate 24','C17 C18')
mu(R,'ref_prf_squeeze_body','i + 1 =? 2','i + 1 =? 4','output rate 32','C18')
mu(R,'ref_prf','let s := xor4 s DSEP in','','DSEP dropped','C17 C18')
mu(R,'ref_prf','b <- branch (CRYPTO_BYTES <? outlen) ;;\n  if b : bool then ret (-1)%Z else','','output length check removed','C20')
mu(R,'ref_prf','xorx s i (PAD inlen)','xorx s 0 (PAD inlen)','pad always in word 0','C17')
mu(R,'crypto_prf_prfs','b1 <- branch (16 <? inlen) ;;\n  if b1 : bool then ret (-1)%Z else','','input length check removed','C20')
mu(R,'crypto_prf_prfs','branch (8 <? inlen)','branch (8 <=? inlen)','8-byte input takes the two-word branch','C19 C12 (claim true: reads zero bytes at inp+8)')
mu(R,'crypto_prf_prfs','trunc 64 (inlen * 8)','inlen','length in bytes in the IV','C19')
mu(R,'crypto_prf_prfs','let s := xor3 s K0 in','let s := xor3 s K1 in','wrong key word','C19')
mu(R,'ref_auth_verify','diff_loop_mem (N.to_nat CRYPTO_BYTES) h tag','diff_loop_mem (N.to_nat CRYPTO_BYTES - 1) h tag','last tag byte not compared','C21')
mu(R,'ref_auth_verify','ret (verdict diff)','ret 0%Z','verify accepts always','C21')
mu(R,'crypto_auth_verify_prfs','b <- branch (16 <? len) ;;\n  if b : bool then ret (-1)%Z else','','verify does not check len (returns verdict on uninitialised tag)','C20 C21')
mu(R,'ref_auth_verify','ref_prf IV CRYPTO_BYTES tag CRYPTO_BYTES','ref_prf IV CRYPTO_BYTES h CRYPTO_BYTES','verify writes the tag into the caller\'s h','C10 C21')
mu(R,'diff_loop','b <- ld a i ;;','b <- ld a i ;; _ <- branch (b2n b =? b2n (nth (N.to_nat i) t x00)) ;;','early-exit style branch on the secret tag byte','C28')
mu(R,'ASCON_128A_IV','(ASCON_TAG_SIZE * 8)','ASCON_TAG_SIZE','tag size in bytes in the IV','C01 C25')
mu(R,'ASCON_CXOF_IV','ASCON_CXOF_VARIANT','ASCON_XOF_VARIANT','CXOF uses the XOF variant number','C15 C31')
K='ModelCommon.v'
mu(K,'wCLEAR','ret (w_clear o w n)','ret w','CLEAR does nothing','C02 C03')
mu(K,'wPAD','if i <? 8 then ret (w_pad o i)','if i <? 8 then ret (w_pad o (7 - i))','big-endian pad position','C01 C13')
mu(K,'wSTOREBYTES','firstn (N.to_nat n) (to_host e 8 (w_out o w))','to_host e 8 (w_out o w)','stores always 8 bytes','C09 C10')
mu(K,'wLOADBYTES','w_in o (from_host e (l ++ zeros (8 - length l)))','w_in o (from_host e (zeros (8 - length l) ++ l))','short loads right-aligned','C01 C13')
mu(K,'NOTZERO','let r := N.lor r (shrw r 32) in','','high half of the difference ignored','C04 C29')
mu(K,'ascon_adata','ret (s, 1, ad, sub64 adlen 8)','ret (s, 1, ad, adlen)','adlen not reduced after the 8-byte part','C01 C09')
mu(K,'ascon_adata','ad <- padd ad 8 ;;\n      ret','ret','ad not advanced after the 8-byte part','C01')
mu(K,'ascon_encrypt','ret (s, 1, m, c, sub64 mlen 8)','ret (s, 0, m, c, sub64 mlen 8)','px stays at x[0]','C01')
mu(K,'enc_body','wSTORE c (X0 s) ;;;\n  m8 <- padd m 8 ;; w <- wLOAD m8 ;; let s := xorx s 1 w in\n  c8 <- padd c 8 ;; wSTORE c8 (X1 s) ;;;','m8 <- padd m 8 ;; w <- wLOAD m8 ;; let s := xorx s 1 w in\n  wSTORE c (X0 s) ;;; c8 <- padd c 8 ;; wSTORE c8 (X1 s) ;;;','store order changed (still correct in place)','C11 (claim stays true)')
mu(K,'dec_body','let s := setx s 0 cx in','','ciphertext word not put in the state','C02 C03')
mu(K,'ascon_decrypt','ret (xorx s px cx)','ret s','ciphertext bytes not put in the state in the last block','C02')
mu(K,'ascon_final','xorx s 4 K1','xorx s 4 K0','wrong key word','C01')
mu(K,'ascon_gettag','wSTOREBYTES t (X3 s) 8 ;;;\n  t8 <- padd t 8 ;; wSTOREBYTES t8 (X4 s) 8','wSTOREBYTES t (X4 s) 8 ;;;\n  t8 <- padd t 8 ;; wSTOREBYTES t8 (X3 s) 8','tag words swapped','C01')
mu(K,'ascon_verify','t8 <- padd t 8 ;; w <- wLOADBYTES t8 8 ;; let s := xorx s 4 w in\n  ret (NOTZERO (X3 s) (X4 s))','ret (NOTZERO (X3 s) 0)','only half of the tag compared','C04')
mu(K,'com_aead_encrypt','t <- padd c mlen ;;','let t := c in','tag written over the ciphertext','C01')
mu(K,'com_aead_decrypt','branch (clen <? CRYPTO_ABYTES)','branch (clen =? 0)','short ciphertexts not rejected','C06')
mu(K,'ascon_squeeze','let s := w_P o 12 s in','','no permutation after absorbing','C13')
mu(K,'ascon_absorb','pad <- wPAD inlen ;;\n  ret (xorx s 0 pad)','ret s','padding dropped','C13')
mu(K,'com_prf','b <- branch (CRYPTO_BYTES <? outlen) ;;\n  if b : bool then ret (-1)%Z else','','output length check removed','C20')
mu(K,'com_prf','s <- (if b : bool then w <- wLOADBYTES inp inlen ;; ret (xorx s i w) else ret s) ;;','','last partial input block dropped','C17 C18')
mu(K,'prf_squeeze_body','getx s i','getx s 0','always word 0 squeezed','C17 C18')
mu(K,'com_prfs','in8 <- padd inp 8 ;; w4 <- wLOADBYTES in8 (sub64 inlen 8) ;;\n    ret (setx s 4 w4)','ret s','second input word dropped','C19')
mu(K,'com_prfs_verify','diff_loop_mem 16 h tag','diff_loop_mem 8 h tag','half of the tag compared','C21')
mu(K,'ascon_encrypt','b <- branch (negb (mlen =? 0)) ;;\n  if b : bool then','b <- branch (negb (mlen =? X0 s)) ;;\n  if negb (mlen =? 0) then','branch on a state word','C28')
W='ModelWords.v'
mu(W,'w64_CLEAR','(8 * n)','(8 * (n + 1))','one byte too many cleared','C02 C26')
mu(W,'w64_START','3 + Z.of_N n','2 + Z.of_N n','wrong first constant of the round loop','C36 C23')
mu(W,'w64_END','0x3c','0x4b','one round missing','C36 C23')
mu(W,'w64_ROR','(N.land (64 - n) 63)','(N.land (32 - n) 63)','wrong shift','C23')
mu(W,'ROUND_t','let t1 := N.lxor t1 t0 in\n  let t3 := N.lxor t3 t2 in\n  let t0 := N.lxor t0 t4 in','let t0 := N.lxor t0 t4 in\n  let t1 := N.lxor t1 t0 in\n  let t3 := N.lxor t3 t2 in','order of the output xors changed (t1 uses the new t0)','C23 C22')
mu(W,'ROUND_x','let x4 := N.lxor x4 (N.land x1 (notw 64 x0)) in\n  let x1','let x1','x4 update dropped','C23')
mu(W,'ROUND_s','xshift x3 10 54 17 47','xshift x3 10 54 17 46','wrong shift amount','C23')
mu(W,'deinterleave16','0x0c0c0c0c','0x0c0c0c0e','wrong mask','C26')
mu(W,'interleave16','swapmove x 0x22222222 1','swapmove x 0x22222220 1','wrong mask','C26')
mu(W,'bi32_ROR','((n + 1) / 2)','((n - 1) / 2)','odd rotation of the other half','C23')
mu(W,'bi32_PAD','4 * i','8 * i','pad not interleaved','C01')
mu(W,'bi32_PRFS_MLEN','(shlw 64 (N.land len 0x04) 56)','(shlw 64 (N.land len 0x04) 55)','length bit misplaced','C19')
mu(W,'bi32_CLEAR','shlw 64 mask 32','shlw 64 mask 31','odd half mask wrong','C02')
mu(W,'bi32_constants','0x6; 0xc; 0x3; 0xc','0x6; 0xc; 0xc; 0x3','table entry swapped','C36 C23')
mu(W,'bi32_RCk','0x0000000900000003','0x0000000900000006','wrong constant','C36 C23')
mu(W,'bi32_INC','2%Z','1%Z','step 1','C36')
mu(W,'bi8_ROR','(N.land (n + j) 0x7)','(N.land (n + j) 0x3)','wrong index mask','C23')
mu(W,'interleave8','0x0000cccc0000cccc','0x0000cccc0000ccc0','wrong mask','C26')
mu(W,'bi8_CLEAR','0xff n','0xff (n + 1)','one bit too many','C02')
mu(W,'bi8_PRFS_MLEN','(shlw 64 (N.land len 0x08) 51)','(shlw 64 (N.land len 0x08) 50)','length bit misplaced','C19')
mu(W,'w64','c_mac := 0x0010200080cc0005','c_mac := 0x0010200080cc0006','wrong MAC IV','C17 C25')
mu(W,'w64_XOF_IV','0x0ee0ea53416b58cc','0x0ee0ea53416b58cd','one bit wrong in the precomputed state','C14 C25')
mu(W,'bi8','0x0404204004050100','0x0404204004050101','wrong PRF IV','C18 C25')
mu(W,'bi32_ops','0x0000820100000203','0x0000820100000202','wrong PRFS IV','C19 C25')
mu('CMem.v','padd','','','(placeholder)','') if False else None
json.dump(M,open('/tmp/mutants1.json','w'))
print(len(M))
