import json
M=[]
def mu(file,defn,old,new,edit,claim,**k):
    M.append(dict(id='N%03d'%(len(M)+1),file=file,definition=defn,old=old,new=new,edit=edit,claim=claim,**k))
L='ModelLow.v'
mu(L,'update_body','setx s i tmp','setx s 0 tmp','decrypted word always inserted in lane 0','C02 C03')
mu(L,'update_body','i + 1 =? upd_rate mode / 8','i + 1 =? 2','rate fixed to 16 in the shared update function (hash rate 8 broken)','C13 C14')
mu(L,'upd_rounds','then 12 else 8','then 8 else 8','hash uses 8 rounds','C13 C14')
mu(L,'update_body','ret (s, i, tmp, inp, out, sub64 len 8)','ret (s, i, tmp, inp, out, sub64 len 16)','length decremented by 16 per 8-byte word','C01 C09')
mu(L,'ascon_update','8 <=? len','8 <? len','full last word handled by the byte tail','C01')
mu(L,'ascon_update','ret (xorx (setx s i x) i tmp)','ret (setx s i x)','partial ciphertext block not inserted','C02 C03')
mu(L,'ascon_aead','let s := xorx s 4 (w_dsep o) in','','domain separation dropped','C01 C30')
mu(L,'ascon_aead','diff_loop tag t','diff_loop out t','tag compared with the output buffer','C04 C02')
mu(L,'low_aead_decrypt','t <- padd c n ;;','t <- padd m n ;;','tag pointer computed from m','C02 C04 C09')
mu(L,'low_aead_encrypt','store_ull e clen (add64 mlen CRYPTO_ABYTES) ;;;','','*clen never written','C08')
mu(L,'low_xof','let s := w_P o 12 s in','','no permutation between absorb and squeeze','C13 C14')
mu(L,'low_hash_xof128','64','32','combined directory outputs 32 bytes','C14 C08')
E8='ModelEsp32.v'
mu(E8,'SBOX','AND x1 x1 t1;','AND x1 x1 t2;','wrong temporary in the S-box','C01 C23')
mu(E8,'LINEAR','SRC sh sl1 sh1 r1;','SRC sh sh1 sl1 r1;','halves swapped in a funnel shift','C01 C23')
mu(E8,'P_body','x1h x1l 9 tmp0','x1h x1l 8 tmp0','rotation amount 8 instead of 9','C01 C23')
mu(E8,'P_body','(Cst 15)','(Cst 14)','round constant step','C23 C01')
mu(E8,'PB_START_ROUND','0xb4','0xc3','one more round in P8','C01')
mu(E8,'duplex_body','if b : bool then set1 (set0 s t0) t1 else s','if b : bool then set0 s t0 else s','second ciphertext word not inserted','C02 C03')
mu(E8,'duplex_last','poke bytes (N.to_nat len)','poke bytes 15','pad byte always last','C01')
mu(E8,'duplex_last','memcpy_out out (firstn (N.to_nat len) bytes)','memcpy_out out bytes','last partial block always writes 16 bytes','C09 C10 C41')
mu(E8,'ascon_duplex','16 <=? len','16 <? len','full last block handled as partial','C01')
mu(E8,'esp_final','let s := hxor3 s K1 in','let s := hxor4 s K1 in','key word added to the wrong lane before the final permutation','C01')
mu(E8,'esp_aead_decrypt','b <- ld c (add64 n i)','b <- ld c i','tag read from the start of c','C02 C04')
mu(E8,'esp_aead_decrypt','store_ull e mlen 0 ;;; ret (-1)%Z','ret (-1)%Z','*mlen left alone on short input (what the other implementations do)','C41')
mu(E8,'esp_adata','(xor4 s 0x8000000000000000)','(xor4 s 1)','domain separation in the wrong byte','C01 C30')
mu(E8,'hash_squeeze','ASCON_HASH_RATE <? len','ASCON_HASH_RATE <? len + 1','squeeze loop runs one block longer, empty tail','C13 (claim true)')
mu(E8,'hash_absorb','ASCON_HASH_RATE <=? len','ASCON_HASH_RATE <? len','full last block treated as partial','C13 C14')
mu(E8,'esp_hash','trunc ul inlen','trunc 32 inlen','length truncated to 32 bits on every host','C13')
O='ModelOpt8.v'
mu(O,'XMUL','byte_rol + i + 1','byte_rol + i + 7','carry byte to the wrong side','C23 C01')
mu(O,'ROR8','N.land (64 - n) 7','N.land n 7','bit rotation in the wrong direction','C23')
mu(O,'LINEAR_LAYER','ROR8 x3 22','ROR8 x3 21','rotation amount','C23')
mu(O,'NONLINEAR_LAYER','(band (b 1%nat s) (bnot t1))','(band (b 1%nat s) t1)','complement dropped','C23')
mu(O,'ROUND8','setb s 16','setb s 23','round constant added to the wrong byte','C23')
mu(O,'DECRYPT','sput s (off + j) t','sput s (off + j) (bxor v t)','plaintext put in the state','C02 C03')
mu(O,'VERIFY','bor r (bxor v b)','bxor v b','only the last byte of each half is compared','C04')
mu(O,'o8_initaead','INSERT s 32 n8 8','INSERT s 32 npub 8','first nonce half used twice','C01 C05')
mu(O,'o8_adata','xorb8 s 4 7 x80','xorb8 s 4 0 x80','domain separation in the wrong byte','C01 C30')
mu(O,'o8_adata','ret (s, 1, ad, sub64 adlen 8)','ret (s, 0, ad, sub64 adlen 8)','tail goes to lane 0','C01')
mu(O,'o8_encrypt','xorb8 s i mlen x01','xorb8 s i mlen x80','old padding byte','C01')
mu(O,'o8_verify','bor (bor x00 r0) r1','bor x00 r1','first tag half ignored','C04')
mu(O,'o8_final','memxor s 16 key','memxor s 8 key','key added at the wrong place','C01')
mu(O,'o8_prf','xorb8 s 4 dpos x80','xorb8 s 4 dpos x01','domain separation constant','C17 C18')
mu(O,'o8_prf','b <- branch (CRYPTO_BYTES <? outlen) ;;\n  if b : bool then ret (-1)%Z else','','output length check removed','C20')
mu(O,'o8_prfs','shlw 64 inlen 51','shlw 64 inlen 48','input length in the IV at the wrong position','C19')
mu(O,'o8_prfs_verify','diff_loop_mem 16 h tag','diff_loop_mem 8 h tag','only 8 tag bytes compared','C21')
mu(O,'o8_auth_verify','o8_prf IV CRYPTO_BYTES tag CRYPTO_BYTES inp len k','o8_prf IV CRYPTO_BYTES tag CRYPTO_BYTES inp CRYPTO_BYTES k','tag of the first CRYPTO_BYTES input bytes','C21')
mu(O,'o8_update_body','negb ((mode =? 10) && (mlen =? o8_rate mode))','negb (mode =? 10)','no permutation between squeezed blocks','C13 C14')
mu(O,'o8_rate','then 8 else 16','then 16 else 16','combined directory hashes with rate 16','C14')
mu(O,'o8_update','ret (s, 1, c, m, sub64 mlen 8)','ret (s, 1, c, m, mlen)','length not reduced after the half block','C01 C09')
mu(O,'avr_hpad','7 - n','n','avr padding fixed (the finding would no longer hold)','C40')
mu('AvrCode.v','DINV','[com (fst a); com (snd a)]','[com (fst a)]','complement of one byte of two','C01 C23 C40')
mu('AvrCode.v','OR1R24','[13; 14; 15; 16; 17; 10; 11; 12]','[14; 15; 16; 17; 10; 11; 12; 13]','rotation by four bytes instead of three','C23 C01')
A='ArmCode.v'
mu(A,'armv7m_ROUND5','ORN x4_l x3_l (R x4_l)','ORR x4_l x3_l (R x4_l)','complement missing','C23 C01')
mu(A,'armv6m_ROUND_LOOP','EOR ','ORR ','first exclusive-or is an or','C23 C01')
mu(A,'bi32_armv7m_ROUND','BIC','AND','first BIC is an AND','C23 C01')
mu(A,'armv6m_S_epilogue','STR','LDR','first store of the epilogue is a load','C23 C01')
mu('ModelArm.v','loop_prog','(Cst 60)','(Cst 75)','one round too few','C23 C01')
K='ModelMask.v'
mu(K,'MXORBIC','let c := EOR_BIC_ROR i c 1 a 1 b 0 (0 - 1) in\n    let c := EOR_AND_ROR i c 1 a 1 b 1 0 in\n    EOR_AND_ROR','let c := EOR_AND_ROR i c 1 a 1 b 0 (0 - 1) in\n    let c := EOR_AND_ROR i c 1 a 1 b 1 0 in\n    EOR_AND_ROR','two-share gadget: AND for BIC','C38')
mu(K,'MXORBIC','EOR_ORR_ROR i c 2 a 2 b 2 0','EOR_AND_ROR i c 2 a 2 b 2 0','three-share gadget: AND for ORR','C38')
mu(K,'MXORBIC','EOR_AND_ROR i c 0 a 0 b 3 (3 - 0)','EOR_AND_ROR i c 0 a 0 b 3 (0 - 3)','four-share gadget: rotation difference negated','C38')
mu(K,'MREMASK','(nso <? 3)%nat) (fun w => wxor w 0 1 (ROR32 (wget r 2 1) (ROT 2)))','(nso <? 3)%nat) (fun w => wxor w 0 1 (ROR32 (wget r 2 1) (ROT 1)))','wrong rotation for share 2','C38')
mu(K,'LINEAR','(ROR32 t31 5)','(ROR32 t30 5)','even/odd halves mixed','C38')
mu(K,'SBOX','(getw s 4) (getw s 3) i ns)','(getw s 3) (getw s 4) i ns)','gadget arguments swapped','C38')
mu(K,'ROUND_','let s := xxor s 2 0 1 C_o in','let s := xxor s 2 1 1 C_o in','constant added to share 1 without rotation','C38')
mu(K,'STORESHARE','aset a (off + N.of_nat ns) (shrw tmp 32)','aset a (off + 1) (shrw tmp 32)','second half stored at off+1','C38')
mu(K,'m_initaead','let s := setw s 4 (MXOR (getw s 4) K2 (nKEY F)) in','','second key word not added','C38')
mu(K,'m_adata','(xxor s 4 0 1 0x80000000)','(xxor s 4 0 0 0x80000000)','domain separation in the even half','C38')
mu(K,'m_encrypt','if b : bool then\n    x <- MLOAD m om (nM F) ;;\n    let s := setw s i','if b : bool then\n    x <- MLOAD m 0 (nM F) ;;\n    let s := setw s i','tail reads the first message word','C38')
mu(K,'m_decrypt','MMASK (getw s 5) clen','MMASK (getw s 5) 0','mask covers the whole word','C38')
mu(K,'m_dec_body','let s := setw s 1 (MEXPAND x (nC F) (nM F)) in','','ciphertext word not put in the state','C38')
mu(K,'m_settag','MREDUCE (getw s 4) (nKEY F) (nC F)','getw s 4','tag word not reduced','C38')
mu(K,'m_iszero','(N.lxor (wget (getw s 4) 0 0) (wget (getw s 4) 0 1))','(wget (getw s 4) 0 0)','one half ignored','C39 C38')
mu(K,'m_iszero','let result := N.lor result (shrw result 8) in','','fold of the second byte missing','C39 C38')
mu(K,'m_xortag','(nth 3 tag_c 0)','(nth 2 tag_c 0)','wrong constant','C38 C39')
mu(K,'m_level_final','(nM F <? nKEY F)%nat','false','no refresh when the number of shares grows','C38 (functional claim still true; refresh matters for side channels)')
mu(K,'m_level_adata','MREDUCE w (nKEY F) (nAD F)','w','dropped shares not folded in','C38')
mu(K,'gs_share','(ROT (2 * Z.of_N d))','(ROT (Z.of_N d))','64-bit rotation by 5d instead of 10d','C38')
mu(K,'cs_byte','shrw x (i mod 8 * 8)','shrw x (i * 8)','byte index not reduced modulo 8','C38')
mu(K,'masked_encrypt','let cs := malloc_shares (b_c H) (nC F) (add64 mlen 16) in','let cs := malloc_shares (b_c H) (nC F) mlen in','ciphertext array without room for the tag','C38 C09')
mu(K,'masked_decrypt','branch (clen <? 16)','branch (clen <=? 16)','empty plaintext rejected','C38')
mu('Impls.v','opt8_MAC_IV','0x0010200080cc0005','0x0010200080cc0006','MAC uses the PRF variant number','C17 C31')
mu('Impls.v','hash_host','HASH_byte B_avr => false','HASH_byte B_avr => le_only e','avr hash claimed conforming','C40 C13')
json.dump(M,open('/tmp/mutants2.json','w'))
import re
for m in M:
    t=open('/verif/rocq/theories/'+m['file']).read()
    x=re.search(r'(Definition|Fixpoint) '+re.escape(m['definition'])+r'\b',t)
    if not x: print('NODEF',m['id'],m['definition']); continue
    d=x.start(); i=t.find(m['old'],d); nxt=re.search(r'\n(Definition|Fixpoint) ',t[d+5:])
    if i<0 or (nxt and i>=d+5+nxt.start()): print('NOOLD',m['id'],m['definition'],m['old'])
print(len(M))
