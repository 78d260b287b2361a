(** Models of the block ciphers: AES (src/1-symm/rijndael.c), SM4, SEED, ARIA and Camellia
    (src/1-symm-national/), and of the masked table look-up they share
    (src/0-datum/sbox.c.h).  The host is little-endian, as everywhere in this model; the
    AES variants that use instructions (rijndael-*.c) are in AesNi.v, sm4-arm.c in NeonNi.v.  Blocks are lists
    of 16 octets; in and out may be the same buffer. *)
From Verif Require Import Base.

(** [(w,i)] 32-bit word i of an octet buffer read through a uint32_t pointer. *)
Definition slice (i n : nat) (l : list Z) : list Z := firstn n (skipn (i * n) l).
Definition rol32 (x n : Z) : Z := Z.lor (u32 (Z.shiftl x n)) (Z.shiftr x (32 - n)).
Definition bswap32 (x : Z) : Z := be_val (le_bytes 4 x).

(* ---------------- sbox.c.h ---------------- *)
(** sbox.c.h:279-284, 303-308: from [mask] to a byte mask that is all ones where [mask]
    has a zero octet. *)
Definition wmask (mask : Z) : Z :=
  let mask := Z.lor mask (Z.shiftr mask 4) in
  let mask := Z.lor mask (Z.shiftr mask 2) in
  let mask := Z.lor mask (Z.shiftr mask 1) in
  let mask := Z.land mask 0x01010101 in
  let mask := u32 (mask * 255) in
  2 ^ 32 - 1 - mask.
(** sbox.c.h:269-290.  The table is a list of the pairs (tab[i], tab[i^1]), i even. *)
Definition wsbox (w : Z) (tab : list (Z * Z)) : Z :=
  fold_left (fun ret e => Z.lor ret (Z.land (fst e) (wmask (Z.lxor (snd e) w)))) tab 0.
(** sbox.c.h:292-313 *)
Definition invwsbox (w : Z) (tab : list (Z * Z)) : Z :=
  fold_left (fun ret e => Z.lor ret (Z.land (snd e) (wmask (Z.lxor (fst e) w)))) tab 0.
(** sbox.c.h:37-108 SBOX_WIDENER, 110-267 SBOX_WIDENER2: X is applied to each entry
    and its index. *)
Definition widen (X : Z -> Z -> Z * Z) (u : list Z) : list (Z * Z) :=
  map (fun i => X (nthZ i u) (Z.of_nat i)) (seq 0 256).
Definition widen2 (X : Z -> Z -> Z -> Z * Z) (u v : list Z) : list (Z * Z) :=
  map (fun i => X (nthZ i u) (nthZ i v) (Z.of_nat i)) (seq 0 256).

(* ---------------- AES: rijndael.c ---------------- *)
(** rijndael.c:7 *)
Definition aes_CALC (b i : Z) : Z * Z := (u32 (b * 0x01010101), u32 (i * 0x01010101)).
(** rijndael.c:9-26 *)
Definition aes_sbox : list Z :=
  [99; 124; 119; 123; 242; 107; 111; 197; 48; 1; 103; 43; 254; 215; 171; 118; 
   202; 130; 201; 125; 250; 89; 71; 240; 173; 212; 162; 175; 156; 164; 114; 192; 
   183; 253; 147; 38; 54; 63; 247; 204; 52; 165; 229; 241; 113; 216; 49; 21; 
   4; 199; 35; 195; 24; 150; 5; 154; 7; 18; 128; 226; 235; 39; 178; 117; 
   9; 131; 44; 26; 27; 110; 90; 160; 82; 59; 214; 179; 41; 227; 47; 132; 
   83; 209; 0; 237; 32; 252; 177; 91; 106; 203; 190; 57; 74; 76; 88; 207; 
   208; 239; 170; 251; 67; 77; 51; 133; 69; 249; 2; 127; 80; 60; 159; 168; 
   81; 163; 64; 143; 146; 157; 56; 245; 188; 182; 218; 33; 16; 255; 243; 210; 
   205; 12; 19; 236; 95; 151; 68; 23; 196; 167; 126; 61; 100; 93; 25; 115; 
   96; 129; 79; 220; 34; 42; 144; 136; 70; 238; 184; 20; 222; 94; 11; 219; 
   224; 50; 58; 10; 73; 6; 36; 92; 194; 211; 172; 98; 145; 149; 228; 121; 
   231; 200; 55; 109; 141; 213; 78; 169; 108; 86; 244; 234; 101; 122; 174; 8; 
   186; 120; 37; 46; 28; 166; 180; 198; 232; 221; 116; 31; 75; 189; 139; 138; 
   112; 62; 181; 102; 72; 3; 246; 14; 97; 53; 87; 185; 134; 193; 29; 158; 
   225; 248; 152; 17; 105; 217; 142; 148; 155; 30; 135; 233; 206; 85; 40; 223; 
   140; 161; 137; 13; 191; 230; 66; 104; 65; 153; 45; 15; 176; 84; 187; 22].
Definition aes_table : list (Z * Z) := widen aes_CALC aes_sbox.

(** rijndael.c:28-32 *)
Definition xtime (x : Z) : Z :=
  let x := u16 (Z.land (Z.shiftl x 1) 0x00ff - Z.land (Z.shiftl x 1) 0x0100) in
  u8 (Z.lxor x (Z.land (Z.shiftr x 8) 0x1b)).
(** rijndael.c:36-51: the state is (a, x). *)
Definition gmul (a b : Z) : Z :=
  snd (fold_left (fun '(a, x) i => (xtime a, if Z.testbit b (Z.of_nat i) then Z.lxor x a else x)) (seq 0 8) (a, 0)).

(** rijndael.c:56-62, 134-140: word-wise substitution. *)
Definition sub_words (f : Z -> Z) (st : list Z) : list Z :=
  flat_map (fun i => le_bytes 4 (f (le_val (slice i 4 st)))) (seq 0 4).
Definition SubBytes (st : list Z) : list Z := sub_words (fun w => wsbox w aes_table) st.
Definition InvSubBytes (st : list Z) : list Z := sub_words (fun w => invwsbox w aes_table) st.

(** rijndael.c:54: s(r,c) is state[r+c*4]; an assignment s(r,c) = v. *)
Definition gets (r c : nat) (st : list Z) : Z := nthZ (r + c * 4) st.
Definition puts (r c : nat) (v : Z) (st : list Z) : list Z := upd (r + c * 4) v st.
(** rijndael.c:64-86 *)
Definition ShiftRows (s : list Z) : list Z :=
  let x := gets 1 0 s in
  let s := puts 1 0 (gets 1 1 s) s in
  let s := puts 1 1 (gets 1 2 s) s in
  let s := puts 1 2 (gets 1 3 s) s in
  let s := puts 1 3 x s in
  let x := gets 2 0 s in
  let s := puts 2 0 (gets 2 2 s) s in
  let s := puts 2 2 x s in
  let x := gets 2 1 s in
  let s := puts 2 1 (gets 2 3 s) s in
  let s := puts 2 3 x s in
  let x := gets 3 3 s in
  let s := puts 3 3 (gets 3 2 s) s in
  let s := puts 3 2 (gets 3 1 s) s in
  let s := puts 3 1 (gets 3 0 s) s in
  puts 3 0 x s.
(** rijndael.c:110-132 *)
Definition InvShiftRows (s : list Z) : list Z :=
  let x := gets 1 3 s in
  let s := puts 1 3 (gets 1 2 s) s in
  let s := puts 1 2 (gets 1 1 s) s in
  let s := puts 1 1 (gets 1 0 s) s in
  let s := puts 1 0 x s in
  let x := gets 2 3 s in
  let s := puts 2 3 (gets 2 1 s) s in
  let s := puts 2 1 x s in
  let x := gets 2 2 s in
  let s := puts 2 2 (gets 2 0 s) s in
  let s := puts 2 0 x s in
  let x := gets 3 0 s in
  let s := puts 3 0 (gets 3 1 s) s in
  let s := puts 3 1 (gets 3 2 s) s in
  let s := puts 3 2 (gets 3 3 s) s in
  puts 3 3 x s.

(** rijndael.c:88-101, 142-155: octet r+c*4 of s2 accumulates over i. *)
Definition mix_with (a : list Z) (st : list Z) : list Z :=
  map (fun k => let r := Nat.modulo k 4 in let c := Nat.div k 4 in
    fold_left (fun acc i => Z.lxor acc (gmul (gets i c st) (nthZ (Nat.modulo (i + 7 - r) 4) a))) (seq 0 4) 0) (seq 0 16).
Definition MixColumns (st : list Z) : list Z := mix_with [0x03; 0x01; 0x01; 0x02] st.
Definition InvMixColumns (st : list Z) : list Z := mix_with [0x0b; 0x0d; 0x09; 0x0e] st.
(** rijndael.c:103-108, with w + i*16 *)
Definition AddRoundKey (st w : list Z) (i : nat) : list Z := xorb_list st (slice i 16 w).

(** rijndael.c:166-186 *)
Definition Rijndael_Cipher (Nr : nat) (w inp : list Z) : list Z :=
  let out := AddRoundKey inp w 0 in
  let out := fold_left (fun out i => AddRoundKey (MixColumns (ShiftRows (SubBytes out))) w i) (seq 1 (Nr - 1)) out in
  AddRoundKey (ShiftRows (SubBytes out)) w Nr.
(** rijndael.c:194-214 *)
Definition Rijndael_InvCipher (Nr : nat) (w inp : list Z) : list Z :=
  let out := AddRoundKey inp w Nr in
  let out := fold_left (fun out i => InvMixColumns (AddRoundKey (InvSubBytes (InvShiftRows out)) w i)) (rev (seq 1 (Nr - 1))) out in
  AddRoundKey (InvSubBytes (InvShiftRows out)) w 0.

(** rijndael.c:224-254: the state is (w as a list of words, Rcon). *)
Definition kexp_step (Nk : nat) (wr : list Z * Z) (i : nat) : list Z * Z :=
  let '(w, Rcon) := wr in
  let temp := nthZ (i - 1) w in
  let '(temp, Rcon) :=
    if (Nat.modulo i Nk =? 0)%nat then
      let temp := wsbox temp aes_table in
      let temp := Z.lor (Z.shiftr temp 8) (u32 (Z.shiftl temp 24)) in
      (Z.lxor temp Rcon, xtime Rcon)
    else if (6 <? Nk)%nat && (Nat.modulo i Nk =? 4)%nat then (wsbox temp aes_table, Rcon)
    else (temp, Rcon) in
  (w ++ [Z.lxor (nthZ (i - Nk) w) temp], Rcon).
Definition Rijndael_KeyExpansion (Nk Nr : nat) (key : list Z) : list Z :=
  let w := map (fun i => le_val (slice i 4 key)) (seq 0 Nk) in
  let '(w, _) := fold_left (kexp_step Nk) (seq Nk (4 * (Nr + 1) - Nk)) (w, 1) in
  flat_map (le_bytes 4) w.

(** rijndael.c:260-282 *)
Definition AES128_Cipher := Rijndael_Cipher 10.
Definition AES192_Cipher := Rijndael_Cipher 12.
Definition AES256_Cipher := Rijndael_Cipher 14.
Definition AES128_InvCipher := Rijndael_InvCipher 10.
Definition AES192_InvCipher := Rijndael_InvCipher 12.
Definition AES256_InvCipher := Rijndael_InvCipher 14.
Definition AES128_KeyExpansion := Rijndael_KeyExpansion 4 10.
Definition AES192_KeyExpansion := Rijndael_KeyExpansion 6 12.
Definition AES256_KeyExpansion := Rijndael_KeyExpansion 8 14.

(* ---------------- SM4: sm4.c ---------------- *)
(** sm4.c:30-48 *)
Definition sm4_sbox : list Z :=
  [214; 144; 233; 254; 204; 225; 61; 183; 22; 182; 20; 194; 40; 251; 44; 5; 
   43; 103; 154; 118; 42; 190; 4; 195; 170; 68; 19; 38; 73; 134; 6; 153; 
   156; 66; 80; 244; 145; 239; 152; 122; 51; 84; 11; 67; 237; 207; 172; 98; 
   228; 179; 28; 169; 201; 8; 232; 149; 128; 223; 148; 250; 117; 143; 63; 166; 
   71; 7; 167; 252; 243; 115; 23; 186; 131; 89; 60; 25; 230; 133; 79; 168; 
   104; 107; 129; 178; 113; 100; 218; 139; 248; 235; 15; 75; 112; 86; 157; 53; 
   30; 36; 14; 94; 99; 88; 209; 162; 37; 34; 124; 59; 1; 33; 120; 135; 
   212; 0; 70; 87; 159; 211; 39; 82; 76; 54; 2; 231; 160; 196; 200; 158; 
   234; 191; 138; 210; 64; 199; 56; 181; 163; 247; 242; 206; 249; 97; 21; 161; 
   224; 174; 93; 164; 155; 52; 26; 85; 173; 147; 50; 48; 245; 140; 177; 227; 
   29; 246; 226; 46; 130; 102; 202; 96; 192; 41; 35; 171; 13; 83; 78; 111; 
   213; 219; 55; 69; 222; 253; 142; 47; 3; 255; 106; 114; 109; 108; 91; 81; 
   141; 27; 175; 146; 187; 221; 188; 127; 17; 217; 92; 65; 31; 16; 90; 216; 
   10; 193; 49; 136; 165; 205; 123; 189; 45; 116; 208; 18; 184; 229; 180; 176; 
   137; 105; 151; 74; 12; 150; 119; 126; 101; 185; 241; 9; 197; 110; 198; 132; 
   24; 240; 125; 236; 58; 220; 77; 32; 121; 238; 95; 62; 215; 203; 57; 72].
Definition sm4_table : list (Z * Z) := widen aes_CALC sm4_sbox.
(** sm4.c:70-73 *)
Definition sm4_tau (x : Z) : Z := wsbox x sm4_table.
(** sm4.c:75-83 *)
Definition Lin0 (B : Z) : Z := Z.lxor (Z.lxor (Z.lxor (Z.lxor B (rol32 B 2)) (rol32 B 10)) (rol32 B 18)) (rol32 B 24).
(** sm4.c:85-88 *)
Definition Lin1 (B : Z) : Z := Z.lxor (Z.lxor B (rol32 B 13)) (rol32 B 23).
(** sm4.c:60-68 *)
Definition Pmt_T0 (x : Z) : Z := Lin0 (sm4_tau x).
Definition Pmt_T1 (x : Z) : Z := Lin1 (sm4_tau x).
(** sm4.c:50-58 *)
Definition Rnd_F (X0 X1 X2 X3 rk : Z) : Z := Z.lxor X0 (Pmt_T0 (Z.lxor (Z.lxor (Z.lxor X1 X2) X3) rk)).
(** sm4.c:90-115 *)
Definition sm4_step (rk : list Z) (rev : bool) (X : list Z) (i : nat) : list Z :=
  upd (Nat.modulo i 4)
      (Rnd_F (nthZ (Nat.modulo (i + 0) 4) X) (nthZ (Nat.modulo (i + 1) 4) X) (nthZ (Nat.modulo (i + 2) 4) X)
             (nthZ (Nat.modulo (i + 3) 4) X) (nthZ (if rev then 31 - i else i) rk)) X.
Definition SM4Feistel (rk : list Z) (rev : bool) (inp : list Z) : list Z :=
  let X := map (fun i => be_val (slice i 4 inp)) (seq 0 4) in
  let X := fold_left (sm4_step rk rev) (seq 0 32) X in
  flat_map (fun i => be_bytes 4 (nthZ (3 - i) X)) (seq 0 4).
(** sm4.c:117-125 *)
Definition SM4Encrypt (rk inp : list Z) : list Z := SM4Feistel rk false inp.
Definition SM4Decrypt (rk inp : list Z) : list Z := SM4Feistel rk true inp.
(** sm4.c:127-140 *)
Definition sm4_FK : list Z := [0xA3B1BAC6; 0x56AA3350; 0x677D9197; 0xB27022DC].
Definition sm4_CK : list Z := [
    0x00070E15; 0x1C232A31; 0x383F464D; 0x545B6269;
    0x70777E85; 0x8C939AA1; 0xA8AFB6BD; 0xC4CBD2D9;
    0xE0E7EEF5; 0xFC030A11; 0x181F262D; 0x343B4249;
    0x50575E65; 0x6C737A81; 0x888F969D; 0xA4ABB2B9;
    0xC0C7CED5; 0xDCE3EAF1; 0xF8FF060D; 0x141B2229;
    0x30373E45; 0x4C535A61; 0x686F767D; 0x848B9299;
    0xA0A7AEB5; 0xBCC3CAD1; 0xD8DFE6ED; 0xF4FB0209;
    0x10171E25; 0x2C333A41; 0x484F565D; 0x646B7279].
(** sm4.c:142-157 *)
Definition SM4KeySched (key : list Z) : list Z :=
  let K := map (fun i => Z.lxor (be_val (slice i 4 key)) (nthZ i sm4_FK)) (seq 0 4) in
  snd (fold_left (fun '(K, rk) i =>
    let v := Z.lxor (nthZ (Nat.modulo i 4) K) (Pmt_T1 (Z.lxor (Z.lxor (Z.lxor (nthZ (Nat.modulo (i + 1) 4) K)
               (nthZ (Nat.modulo (i + 2) 4) K)) (nthZ (Nat.modulo (i + 3) 4) K)) (nthZ i sm4_CK))) in
    (upd (Nat.modulo i 4) v K, rk ++ [v])) (seq 0 32) (K, [])).

(* ---------------- SEED: seed.c ---------------- *)
(** seed.c:71-109 *)
Definition seed_CALC (u v i : Z) : Z * Z := (Z.lor (u * 0x010001) (v * 0x01000100), i * 0x01010101).
Definition seed_s1 : list Z :=
  [169; 133; 214; 211; 84; 29; 172; 37; 93; 67; 24; 30; 81; 252; 202; 99; 
   40; 68; 32; 157; 224; 226; 200; 23; 165; 143; 3; 123; 187; 19; 210; 238; 
   112; 140; 63; 168; 50; 221; 246; 116; 236; 149; 11; 87; 92; 91; 189; 1; 
   36; 28; 115; 152; 16; 204; 242; 217; 44; 231; 114; 131; 155; 209; 134; 201; 
   96; 80; 163; 235; 13; 182; 158; 79; 183; 90; 198; 120; 166; 18; 175; 213; 
   97; 195; 180; 65; 82; 125; 141; 8; 31; 153; 0; 25; 4; 83; 247; 225; 
   253; 118; 47; 39; 176; 139; 14; 171; 162; 110; 147; 77; 105; 124; 9; 10; 
   191; 239; 243; 197; 135; 20; 254; 100; 222; 46; 75; 26; 6; 33; 107; 102; 
   2; 245; 146; 138; 12; 179; 126; 208; 122; 71; 150; 229; 38; 128; 173; 223; 
   161; 48; 55; 174; 54; 21; 34; 56; 244; 167; 69; 76; 129; 233; 132; 151; 
   53; 203; 206; 60; 113; 17; 199; 137; 117; 251; 218; 248; 148; 89; 130; 196; 
   255; 73; 57; 103; 192; 207; 215; 184; 15; 142; 66; 35; 145; 108; 219; 164; 
   52; 241; 72; 194; 111; 61; 45; 64; 190; 62; 188; 193; 170; 186; 78; 85; 
   59; 220; 104; 127; 156; 216; 74; 86; 119; 160; 237; 70; 181; 43; 101; 250; 
   227; 185; 177; 159; 94; 249; 230; 178; 49; 234; 109; 95; 228; 240; 205; 136; 
   22; 58; 88; 212; 98; 41; 7; 51; 232; 27; 5; 121; 144; 106; 42; 154].
Definition seed_s2 : list Z :=
  [56; 232; 45; 166; 207; 222; 179; 184; 175; 96; 85; 199; 68; 111; 107; 91; 
   195; 98; 51; 181; 41; 160; 226; 167; 211; 145; 17; 6; 28; 188; 54; 75; 
   239; 136; 108; 168; 23; 196; 22; 244; 194; 69; 225; 214; 63; 61; 142; 152; 
   40; 78; 246; 62; 165; 249; 13; 223; 216; 43; 102; 122; 39; 47; 241; 114; 
   66; 212; 65; 192; 115; 103; 172; 139; 247; 173; 128; 31; 202; 44; 170; 52; 
   210; 11; 238; 233; 93; 148; 24; 248; 87; 174; 8; 197; 19; 205; 134; 185; 
   255; 125; 193; 49; 245; 138; 106; 177; 209; 32; 215; 2; 34; 4; 104; 113; 
   7; 219; 157; 153; 97; 190; 230; 89; 221; 81; 144; 220; 154; 163; 171; 208; 
   129; 15; 71; 26; 227; 236; 141; 191; 150; 123; 92; 162; 161; 99; 35; 77; 
   200; 158; 156; 58; 12; 46; 186; 110; 159; 90; 242; 146; 243; 73; 120; 204; 
   21; 251; 112; 117; 127; 53; 16; 3; 100; 109; 198; 116; 213; 180; 234; 9; 
   118; 25; 254; 64; 18; 224; 189; 5; 250; 1; 240; 42; 94; 169; 86; 67; 
   133; 20; 137; 155; 176; 229; 72; 121; 151; 252; 30; 130; 33; 140; 27; 95; 
   119; 84; 178; 29; 37; 79; 0; 70; 237; 88; 82; 235; 126; 218; 201; 253; 
   48; 149; 101; 60; 182; 228; 187; 124; 14; 80; 57; 38; 50; 132; 105; 147; 
   55; 231; 36; 164; 203; 83; 10; 135; 217; 76; 131; 143; 206; 59; 74; 183].
Definition seed_table : list (Z * Z) := widen2 seed_CALC seed_s1 seed_s2.
(** seed.c:111-124 *)
Definition seed_G (x : Z) : Z :=
  let wX := bswap32 (wsbox x seed_table) in
  let ror n := Z.lor (Z.shiftr wX n) (u32 (Z.shiftl wX (32 - n))) in
  Z.lxor (Z.lxor (Z.lxor (Z.land 0x3F3F3F3F wX) (Z.land 0xCFCFCFCF (ror 8)))
                 (Z.land 0xF3F3F3F3 (ror 16))) (Z.land 0xFCFCFCFC (ror 24)).
(** seed.c:54-69 *)
Definition seed_F (k x : Z) : Z :=
  let Ki0 := u32 (Z.shiftr k 32) in let Ki1 := u32 k in
  let R0 := u32 (Z.shiftr x 32) in let R1 := u32 x in
  let g1 := seed_G (Z.lxor (Z.lxor R0 Ki0) (Z.lxor R1 Ki1)) in
  let g2 := seed_G (u32 (g1 + Z.lxor R0 Ki0)) in
  let g3 := seed_G (u32 (g2 + g1)) in
  let R_0 := u32 (g3 + g2) in
  let R_1 := u32 g3 in
  Z.lor (Z.shiftl R_0 32) R_1.
(** seed.c:9-29 *)
Definition SEED_Encrypt (K inp : list Z) : list Z :=
  let L := be_val (slice 0 8 inp) in
  let R := be_val (slice 1 8 inp) in
  let '(L, R) := fold_left (fun '(L, R) i => (R, Z.lxor L (seed_F (nthZ i K) R))) (seq 0 15) (L, R) in
  let L := Z.lxor L (seed_F (nthZ 15 K) R) in
  be_bytes 8 L ++ be_bytes 8 R.
(** seed.c:31-51 *)
Definition SEED_Decrypt (K inp : list Z) : list Z :=
  let L := be_val (slice 0 8 inp) in
  let R := be_val (slice 1 8 inp) in
  let L := Z.lxor L (seed_F (nthZ 15 K) R) in
  let '(L, R) := fold_left (fun '(L, R) i => (Z.lxor R (seed_F (nthZ i K) L), L)) (rev (seq 0 15)) (L, R) in
  be_bytes 8 L ++ be_bytes 8 R.
(** seed.c:133-142 *)
Definition seed_KC : list Z := [
  0x9E3779B9; 0x3C6EF373; 0x78DDE6E6; 0xF1BBCDCC; 0xE3779B99; 0xC6EF3733; 0x8DDE6E67; 0x1BBCDCCF;
  0x3779B99E; 0x6EF3733C; 0xDDE6E678; 0xBBCDCCF1; 0x779B99E3; 0xEF3733C6; 0xDE6E678D; 0xBCDCCF1B].
(** seed.c:126-170 *)
Definition SEED_KeySched (key : list Z) : list Z :=
  let k := map (fun i => be_val (slice i 4 key)) (seq 0 4) in
  snd (fold_left (fun '(k, K) i =>
    let u := seed_G (u32 (nthZ 0 k + nthZ 2 k - nthZ i seed_KC)) in
    let v := seed_G (u32 (nthZ 1 k - nthZ 3 k + nthZ i seed_KC)) in
    let K := K ++ [Z.lor (Z.shiftl u 32) v] in
    let k := if Nat.odd i then
        upd 3 (Z.lor (u32 (Z.shiftl (nthZ 3 k) 8)) (Z.shiftr (nthZ 2 k) 24))
          (upd 2 (Z.lor (u32 (Z.shiftl (nthZ 2 k) 8)) (Z.shiftr (nthZ 3 k) 24)) k)
      else
        upd 1 (Z.lor (Z.shiftr (nthZ 1 k) 8) (u32 (Z.shiftl (nthZ 0 k) 24)))
          (upd 0 (Z.lor (Z.shiftr (nthZ 0 k) 8) (u32 (Z.shiftl (nthZ 1 k) 24))) k) in
    (k, K)) (seq 0 16) (k, [])).

(* ---------------- ARIA: aria.c ---------------- *)
(** aria.c:7-45 *)
Definition aria_CALC (u v i : Z) : Z * Z :=
  (Z.lor (Z.lor (Z.shiftl u 24) (Z.shiftl v 16)) (i * 0x0101), Z.lor (Z.lor (i * 0x01010000) (Z.shiftl u 8)) v).
Definition aria_s1 : list Z :=
  [99; 124; 119; 123; 242; 107; 111; 197; 48; 1; 103; 43; 254; 215; 171; 118; 
   202; 130; 201; 125; 250; 89; 71; 240; 173; 212; 162; 175; 156; 164; 114; 192; 
   183; 253; 147; 38; 54; 63; 247; 204; 52; 165; 229; 241; 113; 216; 49; 21; 
   4; 199; 35; 195; 24; 150; 5; 154; 7; 18; 128; 226; 235; 39; 178; 117; 
   9; 131; 44; 26; 27; 110; 90; 160; 82; 59; 214; 179; 41; 227; 47; 132; 
   83; 209; 0; 237; 32; 252; 177; 91; 106; 203; 190; 57; 74; 76; 88; 207; 
   208; 239; 170; 251; 67; 77; 51; 133; 69; 249; 2; 127; 80; 60; 159; 168; 
   81; 163; 64; 143; 146; 157; 56; 245; 188; 182; 218; 33; 16; 255; 243; 210; 
   205; 12; 19; 236; 95; 151; 68; 23; 196; 167; 126; 61; 100; 93; 25; 115; 
   96; 129; 79; 220; 34; 42; 144; 136; 70; 238; 184; 20; 222; 94; 11; 219; 
   224; 50; 58; 10; 73; 6; 36; 92; 194; 211; 172; 98; 145; 149; 228; 121; 
   231; 200; 55; 109; 141; 213; 78; 169; 108; 86; 244; 234; 101; 122; 174; 8; 
   186; 120; 37; 46; 28; 166; 180; 198; 232; 221; 116; 31; 75; 189; 139; 138; 
   112; 62; 181; 102; 72; 3; 246; 14; 97; 53; 87; 185; 134; 193; 29; 158; 
   225; 248; 152; 17; 105; 217; 142; 148; 155; 30; 135; 233; 206; 85; 40; 223; 
   140; 161; 137; 13; 191; 230; 66; 104; 65; 153; 45; 15; 176; 84; 187; 22].
Definition aria_s2 : list Z :=
  [226; 78; 84; 252; 148; 194; 74; 204; 98; 13; 106; 70; 60; 77; 139; 209; 
   94; 250; 100; 203; 180; 151; 190; 43; 188; 119; 46; 3; 211; 25; 89; 193; 
   29; 6; 65; 107; 85; 240; 153; 105; 234; 156; 24; 174; 99; 223; 231; 187; 
   0; 115; 102; 251; 150; 76; 133; 228; 58; 9; 69; 170; 15; 238; 16; 235; 
   45; 127; 244; 41; 172; 207; 173; 145; 141; 120; 200; 149; 249; 47; 206; 205; 
   8; 122; 136; 56; 92; 131; 42; 40; 71; 219; 184; 199; 147; 164; 18; 83; 
   255; 135; 14; 49; 54; 33; 88; 72; 1; 142; 55; 116; 50; 202; 233; 177; 
   183; 171; 12; 215; 196; 86; 66; 38; 7; 152; 96; 217; 182; 185; 17; 64; 
   236; 32; 140; 189; 160; 201; 132; 4; 73; 35; 241; 79; 80; 31; 19; 220; 
   216; 192; 158; 87; 227; 195; 123; 101; 59; 2; 143; 62; 232; 37; 146; 229; 
   21; 221; 253; 23; 169; 191; 212; 154; 126; 197; 57; 103; 254; 118; 157; 67; 
   167; 225; 208; 245; 104; 242; 27; 52; 112; 5; 163; 138; 213; 121; 134; 168; 
   48; 198; 81; 75; 30; 166; 39; 246; 53; 210; 110; 36; 22; 130; 95; 218; 
   230; 117; 162; 239; 44; 178; 28; 159; 93; 111; 128; 10; 114; 68; 155; 108; 
   144; 11; 91; 51; 125; 90; 82; 243; 97; 161; 247; 176; 214; 63; 124; 109; 
   237; 20; 224; 165; 61; 34; 179; 248; 137; 222; 113; 26; 175; 186; 181; 129].
Definition aria_table : list (Z * Z) := widen2 aria_CALC aria_s1 aria_s2.
(** aria.c:47-58 *)
Definition SL1 (x : list Z) : list Z :=
  flat_map (fun i => be_bytes 4 (wsbox (be_val (slice i 4 x)) aria_table)) (seq 0 4).
(** aria.c:60-73 *)
Definition SL2 (x : list Z) : list Z :=
  flat_map (fun i => be_bytes 4 (rol32 (wsbox (rol32 (be_val (slice i 4 x)) 16) aria_table) 16)) (seq 0 4).
(** aria.c:75-99 *)
Definition aria_A (l : list Z) : list Z :=
  let x i := nthZ (Z.to_nat i) l in
    [Z.lxor (Z.lxor (Z.lxor (Z.lxor (Z.lxor (Z.lxor (x 3) (x 4)) (x 6)) (x 8)) (x 9)) (x 13)) (x 14);
     Z.lxor (Z.lxor (Z.lxor (Z.lxor (Z.lxor (Z.lxor (x 2) (x 5)) (x 7)) (x 8)) (x 9)) (x 12)) (x 15);
     Z.lxor (Z.lxor (Z.lxor (Z.lxor (Z.lxor (Z.lxor (x 1) (x 4)) (x 6)) (x 10)) (x 11)) (x 12)) (x 15);
     Z.lxor (Z.lxor (Z.lxor (Z.lxor (Z.lxor (Z.lxor (x 0) (x 5)) (x 7)) (x 10)) (x 11)) (x 13)) (x 14);
     Z.lxor (Z.lxor (Z.lxor (Z.lxor (Z.lxor (Z.lxor (x 0) (x 2)) (x 5)) (x 8)) (x 11)) (x 14)) (x 15);
     Z.lxor (Z.lxor (Z.lxor (Z.lxor (Z.lxor (Z.lxor (x 1) (x 3)) (x 4)) (x 9)) (x 10)) (x 14)) (x 15);
     Z.lxor (Z.lxor (Z.lxor (Z.lxor (Z.lxor (Z.lxor (x 0) (x 2)) (x 7)) (x 9)) (x 10)) (x 12)) (x 13);
     Z.lxor (Z.lxor (Z.lxor (Z.lxor (Z.lxor (Z.lxor (x 1) (x 3)) (x 6)) (x 8)) (x 11)) (x 12)) (x 13);
     Z.lxor (Z.lxor (Z.lxor (Z.lxor (Z.lxor (Z.lxor (x 0) (x 1)) (x 4)) (x 7)) (x 10)) (x 13)) (x 15);
     Z.lxor (Z.lxor (Z.lxor (Z.lxor (Z.lxor (Z.lxor (x 0) (x 1)) (x 5)) (x 6)) (x 11)) (x 12)) (x 14);
     Z.lxor (Z.lxor (Z.lxor (Z.lxor (Z.lxor (Z.lxor (x 2) (x 3)) (x 5)) (x 6)) (x 8)) (x 13)) (x 15);
     Z.lxor (Z.lxor (Z.lxor (Z.lxor (Z.lxor (Z.lxor (x 2) (x 3)) (x 4)) (x 7)) (x 9)) (x 12)) (x 14);
     Z.lxor (Z.lxor (Z.lxor (Z.lxor (Z.lxor (Z.lxor (x 1) (x 2)) (x 6)) (x 7)) (x 9)) (x 11)) (x 12);
     Z.lxor (Z.lxor (Z.lxor (Z.lxor (Z.lxor (Z.lxor (x 0) (x 3)) (x 6)) (x 7)) (x 8)) (x 10)) (x 13);
     Z.lxor (Z.lxor (Z.lxor (Z.lxor (Z.lxor (Z.lxor (x 0) (x 3)) (x 4)) (x 5)) (x 9)) (x 11)) (x 14);
     Z.lxor (Z.lxor (Z.lxor (Z.lxor (Z.lxor (Z.lxor (x 1) (x 2)) (x 4)) (x 5)) (x 8)) (x 10)) (x 15)].
(** aria.c:101-117, RK not NULL *)
Definition FO (D RK : list Z) : list Z := aria_A (SL1 (xorb_list D RK)).
Definition FE (D RK : list Z) : list Z := aria_A (SL2 (xorb_list D RK)).
(** aria.c:119-193: the words W are (h,l) pairs of big-endian-decoded 64-bit words. *)
Definition ARIA_Kschd (c : nat) (W0h W0l W1h W1l W2h W2l W3h W3l : Z) : list Z :=
  flat_map (be_bytes 8) (firstn ((c + 1) * 2)
    [Z.lxor W0h (Z.lor (Z.shiftr W1h 19) (u64 (Z.shiftl W1l 45)));
     Z.lxor W0l (Z.lor (Z.shiftr W1l 19) (u64 (Z.shiftl W1h 45)));
     Z.lxor W1h (Z.lor (Z.shiftr W2h 19) (u64 (Z.shiftl W2l 45)));
     Z.lxor W1l (Z.lor (Z.shiftr W2l 19) (u64 (Z.shiftl W2h 45)));
     Z.lxor W2h (Z.lor (Z.shiftr W3h 19) (u64 (Z.shiftl W3l 45)));
     Z.lxor W2l (Z.lor (Z.shiftr W3l 19) (u64 (Z.shiftl W3h 45)));
     Z.lxor W3h (Z.lor (Z.shiftr W0h 19) (u64 (Z.shiftl W0l 45)));
     Z.lxor W3l (Z.lor (Z.shiftr W0l 19) (u64 (Z.shiftl W0h 45)));
     Z.lxor W0h (Z.lor (Z.shiftr W1h 31) (u64 (Z.shiftl W1l 33)));
     Z.lxor W0l (Z.lor (Z.shiftr W1l 31) (u64 (Z.shiftl W1h 33)));
     Z.lxor W1h (Z.lor (Z.shiftr W2h 31) (u64 (Z.shiftl W2l 33)));
     Z.lxor W1l (Z.lor (Z.shiftr W2l 31) (u64 (Z.shiftl W2h 33)));
     Z.lxor W2h (Z.lor (Z.shiftr W3h 31) (u64 (Z.shiftl W3l 33)));
     Z.lxor W2l (Z.lor (Z.shiftr W3l 31) (u64 (Z.shiftl W3h 33)));
     Z.lxor W3h (Z.lor (Z.shiftr W0h 31) (u64 (Z.shiftl W0l 33)));
     Z.lxor W3l (Z.lor (Z.shiftr W0l 31) (u64 (Z.shiftl W0h 33)));
     Z.lxor W0h (Z.lor (u64 (Z.shiftl W1h 61)) (Z.shiftr W1l 3));
     Z.lxor W0l (Z.lor (u64 (Z.shiftl W1l 61)) (Z.shiftr W1h 3));
     Z.lxor W1h (Z.lor (u64 (Z.shiftl W2h 61)) (Z.shiftr W2l 3));
     Z.lxor W1l (Z.lor (u64 (Z.shiftl W2l 61)) (Z.shiftr W2h 3));
     Z.lxor W2h (Z.lor (u64 (Z.shiftl W3h 61)) (Z.shiftr W3l 3));
     Z.lxor W2l (Z.lor (u64 (Z.shiftl W3l 61)) (Z.shiftr W3h 3));
     Z.lxor W3h (Z.lor (u64 (Z.shiftl W0h 61)) (Z.shiftr W0l 3));
     Z.lxor W3l (Z.lor (u64 (Z.shiftl W0l 61)) (Z.shiftr W0h 3));
     Z.lxor W0h (Z.lor (u64 (Z.shiftl W1h 31)) (Z.shiftr W1l 33));
     Z.lxor W0l (Z.lor (u64 (Z.shiftl W1l 31)) (Z.shiftr W1h 33));
     Z.lxor W1h (Z.lor (u64 (Z.shiftl W2h 31)) (Z.shiftr W2l 33));
     Z.lxor W1l (Z.lor (u64 (Z.shiftl W2l 31)) (Z.shiftr W2h 33));
     Z.lxor W2h (Z.lor (u64 (Z.shiftl W3h 31)) (Z.shiftr W3l 33));
     Z.lxor W2l (Z.lor (u64 (Z.shiftl W3l 31)) (Z.shiftr W3h 33));
     Z.lxor W3h (Z.lor (u64 (Z.shiftl W0h 31)) (Z.shiftr W0l 33));
     Z.lxor W3l (Z.lor (u64 (Z.shiftl W0l 31)) (Z.shiftr W0h 33));
     Z.lxor W0h (Z.lor (u64 (Z.shiftl W1h 19)) (Z.shiftr W1l 45));
     Z.lxor W0l (Z.lor (u64 (Z.shiftl W1l 19)) (Z.shiftr W1h 45))]).
(** aria.c:195-200 *)
Definition aria_C1 : list Z := be_bytes 8 0x517cc1b727220a94 ++ be_bytes 8 0xfe13abe8fa9a6ee0.
Definition aria_C2 : list Z := be_bytes 8 0x6db14acc9e21c820 ++ be_bytes 8 0xff28b1d5ef5de2b0.
Definition aria_C3 : list Z := be_bytes 8 0xdb92371d2126e970 ++ be_bytes 8 0x0324977504e8c90e.
(** aria.c:202-311: the three schedules differ in c, the constants' order and the key
    octets beyond 16 (absent ones are not xored, i.e. zero). *)
Definition ARIA_KeySched (c : nat) (CK1 CK2 CK3 : list Z) (key : list Z) : list Z :=
  let KL := firstn 16 key in
  let KR := firstn 16 (skipn 16 key ++ repeat 0 16) in
  let W0 := KL in
  let W1 := xorb_list (aria_A (SL1 (xorb_list W0 CK1))) KR in
  let W2 := xorb_list (aria_A (SL2 (xorb_list W1 CK2))) W0 in
  let W3 := xorb_list (aria_A (SL1 (xorb_list W2 CK3))) W1 in
  let h W := be_val (slice 0 8 W) in
  let l W := be_val (slice 1 8 W) in
  ARIA_Kschd c (h W0) (l W0) (h W1) (l W1) (h W2) (l W2) (h W3) (l W3).
Definition ARIA128_KeySched := ARIA_KeySched 12 aria_C1 aria_C2 aria_C3.
Definition ARIA192_KeySched := ARIA_KeySched 14 aria_C2 aria_C3 aria_C1.
Definition ARIA256_KeySched := ARIA_KeySched 16 aria_C3 aria_C1 aria_C2.
(** aria.c:313-334; &ek[i*16] is round key i. *)
Definition ARIA_Encrypt (c : nat) (ek inp : list Z) : list Z :=
  let n := (c / 2 - 1)%nat in
  let out := fold_left (fun out i => FE (FO out (slice (i * 2) 16 ek)) (slice (i * 2 + 1) 16 ek)) (seq 0 n) inp in
  let out := FO out (slice (n * 2) 16 ek) in
  let out := xorb_list out (slice (n * 2 + 1) 16 ek) in
  let out := SL2 out in
  xorb_list out (slice (n * 2 + 2) 16 ek).
(** aria.c:336-372; [aria_dec_loop] is the loop "for(i=c; i>2; )" of n passes. *)
Fixpoint aria_dec_loop (n : nat) (ek out dk : list Z) (i : nat) : list Z * list Z * nat :=
  match n with
  | O => (out, dk, i)
  | S n =>
    let out := FO out dk in
    let i := (i - 1)%nat in
    let dk := aria_A (slice i 16 ek) in
    let out := FE out dk in
    let i := (i - 1)%nat in
    let dk := aria_A (slice i 16 ek) in
    aria_dec_loop n ek out dk i
  end.
Definition ARIA_Decrypt (c : nat) (ek inp : list Z) : list Z :=
  let '(out, dk, i) := aria_dec_loop ((c - 1) / 2) ek inp (slice c 16 ek) c in
  let out := FO out dk in
  let dk := aria_A (slice 1 16 ek) in
  let out := xorb_list out dk in
  let out := SL2 out in
  xorb_list out (slice 0 16 ek).

(* ---------------- Camellia: camellia.c ---------------- *)
(** camellia.c:7-33 *)
Definition cam_CALC (b i : Z) : Z * Z :=
  (Z.lor (Z.lor (Z.lor (Z.lor (Z.lor (Z.shiftl b 24) (Z.shiftl (Z.land b 0x7f) 17)) (Z.shiftl (Z.land b 0x80) 9))
     (Z.shiftl (Z.land b 0xfe) 7)) (Z.shiftl (Z.land b 0x01) 15)) b,
   Z.lor (Z.lor (i * 0x01010100) (Z.shiftr (Z.land i 0xfe) 1)) (Z.shiftl (Z.land i 0x01) 7)).
Definition cam_sbox : list Z :=
  [112; 130; 44; 236; 179; 39; 192; 229; 228; 133; 87; 53; 234; 12; 174; 65; 
   35; 239; 107; 147; 69; 25; 165; 33; 237; 14; 79; 78; 29; 101; 146; 189; 
   134; 184; 175; 143; 124; 235; 31; 206; 62; 48; 220; 95; 94; 197; 11; 26; 
   166; 225; 57; 202; 213; 71; 93; 61; 217; 1; 90; 214; 81; 86; 108; 77; 
   139; 13; 154; 102; 251; 204; 176; 45; 116; 18; 43; 32; 240; 177; 132; 153; 
   223; 76; 203; 194; 52; 126; 118; 5; 109; 183; 169; 49; 209; 23; 4; 215; 
   20; 88; 58; 97; 222; 27; 17; 28; 50; 15; 156; 22; 83; 24; 242; 34; 
   254; 68; 207; 178; 195; 181; 122; 145; 36; 8; 232; 168; 96; 252; 105; 80; 
   170; 208; 160; 125; 161; 137; 98; 151; 84; 91; 30; 149; 224; 255; 100; 210; 
   16; 196; 0; 72; 163; 247; 117; 219; 138; 3; 230; 218; 9; 63; 221; 148; 
   135; 92; 131; 2; 205; 74; 144; 51; 115; 103; 246; 243; 157; 127; 191; 226; 
   82; 155; 216; 38; 200; 55; 198; 59; 129; 150; 111; 75; 19; 190; 99; 46; 
   233; 121; 167; 140; 159; 110; 188; 142; 41; 245; 249; 182; 47; 253; 180; 89; 
   120; 152; 6; 106; 231; 70; 113; 186; 212; 37; 171; 66; 136; 162; 141; 250; 
   114; 7; 185; 85; 248; 238; 172; 10; 54; 73; 42; 104; 60; 56; 241; 164; 
   64; 40; 211; 123; 187; 201; 67; 193; 21; 227; 173; 244; 119; 199; 128; 158].
Definition cam_table : list (Z * Z) := widen cam_CALC cam_sbox.
(** camellia.c:73-84 *)
Definition cam_S (x : Z) : Z :=
  let hi := wsbox (u32 (Z.shiftr x 32)) cam_table in
  let lo := u32 x in
  let lo := Z.lor (u32 (Z.shiftl lo 24)) (Z.shiftr lo 8) in
  let lo := wsbox lo cam_table in
  let lo := Z.lor (Z.shiftr lo 24) (u32 (Z.shiftl lo 8)) in
  Z.lor (u64 (Z.shiftl hi 32)) lo.
(** camellia.c:86-93 *)
Definition xmask_bytes (x m : Z) : Z :=
  let ret := Z.land x m in
  let ret := Z.lxor ret (Z.shiftr ret 32) in
  let ret := Z.lxor ret (Z.shiftr ret 16) in
  let ret := Z.lxor ret (Z.shiftr ret 8) in
  Z.land ret 0xFF.
(** camellia.c:95-106 *)
Definition cam_P (x : Z) : Z :=
  Z.lor (Z.lor (Z.lor (Z.lor (Z.lor (Z.lor (Z.lor
    (Z.shiftl (xmask_bytes x 0xFF00FFFF00FFFFFF) 56)
    (Z.shiftl (xmask_bytes x 0xFFFF00FFFF00FFFF) 48))
    (Z.shiftl (xmask_bytes x 0xFFFFFF00FFFF00FF) 40))
    (Z.shiftl (xmask_bytes x 0x00FFFFFFFFFFFF00) 32))
    (Z.shiftl (xmask_bytes x 0xFFFF000000FFFFFF) 24))
    (Z.shiftl (xmask_bytes x 0x00FFFF00FF00FFFF) 16))
    (Z.shiftl (xmask_bytes x 0x0000FFFFFFFF00FF) 8))
    (xmask_bytes x 0xFF0000FFFFFFFF00).
(** camellia.c:42-45 *)
Definition cam_F (X k : Z) : Z := u64 (cam_P (cam_S (Z.lxor X k))).
(** camellia.c:47-58 *)
Definition func_FL (X kl : Z) : Z :=
  let X_L := u32 (Z.shiftr X 32) in let X_R := u32 X in
  let kl_L := u32 (Z.shiftr kl 32) in let kl_R := u32 kl in
  let Y_R := Z.land X_L kl_L in
  let Y_R := rol32 Y_R 1 in
  let Y_R := Z.lxor Y_R X_R in
  let Y_L := Z.lor Y_R kl_R in
  let Y_L := Z.lxor Y_L X_L in
  Z.lor (Z.shiftl Y_L 32) Y_R.
(** camellia.c:60-71 *)
Definition invf_FL (Y kl : Z) : Z :=
  let Y_L := u32 (Z.shiftr Y 32) in let Y_R := u32 Y in
  let kl_L := u32 (Z.shiftr kl 32) in let kl_R := u32 kl in
  let X_L := Z.lor Y_R kl_R in
  let X_L := Z.lxor X_L Y_L in
  let X_R := Z.land X_L kl_L in
  let X_R := rol32 X_R 1 in
  let X_R := Z.lxor X_R Y_R in
  Z.lor (Z.shiftl X_L 32) X_R.

(** camellia.h: the expanded key.  The 128-bit schedule has no R and B parts. *)
Record cam_kw := CamKw { K_LL : Z; K_LR : Z; K_AL : Z; K_AR : Z; K_RL : Z; K_RR : Z; K_BL : Z; K_BR : Z }.
(** camellia.c:115-134, on the already byte-swapped words *)
Definition Camellia_KeySched128 (k0 k1 kl0 kl1 : Z) : cam_kw :=
  let l := k0 in let r := k1 in
  let r := Z.lxor r (cam_F l 0xA09E667F3BCC908B) in
  let l := Z.lxor l (cam_F r 0xB67AE8584CAA73B2) in
  let l := Z.lxor l kl0 in
  let r := Z.lxor r kl1 in
  let r := Z.lxor r (cam_F l 0xC6EF372FE94F82BE) in
  let l := Z.lxor l (cam_F r 0x54FF53A5F1D36F1C) in
  CamKw kl0 kl1 l r 0 0 0 0.
(** camellia.c:136-150 *)
Definition Camellia_KeySched256 (kr0 kr1 : Z) (kw : cam_kw) : cam_kw :=
  let l := Z.lxor kr0 (K_AL kw) in let r := Z.lxor kr1 (K_AR kw) in
  let r := Z.lxor r (cam_F l 0x10E527FADE682D1D) in
  let l := Z.lxor l (cam_F r 0xB05688C2B3E6C1FD) in
  CamKw (K_LL kw) (K_LR kw) (K_AL kw) (K_AR kw) kr0 kr1 l r.
(** camellia.c:152-185 *)
Definition Camellia128_KeySched (key : list Z) : cam_kw :=
  let k i := be_val (slice i 8 key) in Camellia_KeySched128 (k 0%nat) (k 1%nat) (k 0%nat) (k 1%nat).
Definition Camellia192_KeySched (key : list Z) : cam_kw :=
  let k i := be_val (slice i 8 key) in
  let n2 := 2 ^ 64 - 1 - k 2%nat in
  Camellia_KeySched256 (k 2%nat) n2
    (Camellia_KeySched128 (Z.lxor (k 0%nat) (k 2%nat)) (Z.lxor (k 1%nat) n2) (k 0%nat) (k 1%nat)).
Definition Camellia256_KeySched (key : list Z) : cam_kw :=
  let k i := be_val (slice i 8 key) in
  Camellia_KeySched256 (k 2%nat) (k 3%nat)
    (Camellia_KeySched128 (Z.lxor (k 0%nat) (k 2%nat)) (Z.lxor (k 1%nat) (k 3%nat)) (k 0%nat) (k 1%nat)).

(** The bodies of the four cipher functions are straight-line sequences of statements
    on the two variables l and r; one constructor per statement form:
    "r ^= func_F(l, k)", "l ^= func_F(r, k)", "l = func_FL(l, k)", "r = func_FL(r, k)",
    "l = invf_FL(l, k)", "r = invf_FL(r, k)", "l ^= k", "r ^= k". *)
Inductive cam_op :=
  | OpFR (k : Z) | OpFL (k : Z) | OpFLL (k : Z) | OpFLR (k : Z)
  | OpInvFLL (k : Z) | OpInvFLR (k : Z) | OpXL (k : Z) | OpXR (k : Z).
Definition cam_exec (s : Z * Z) (o : cam_op) : Z * Z :=
  let '(l, r) := s in
  match o with
  | OpFR k => (l, Z.lxor r (cam_F l k))
  | OpFL k => (Z.lxor l (cam_F r k), r)
  | OpFLL k => (func_FL l k, r)
  | OpFLR k => (l, func_FL r k)
  | OpInvFLL k => (invf_FL l k, r)
  | OpInvFLR k => (l, invf_FL r k)
  | OpXL k => (Z.lxor l k, r)
  | OpXR k => (l, Z.lxor r k)
  end.
(** "a << n | b >> m" *)
Definition sh (a n b m : Z) : Z := Z.lor (u64 (Z.shiftl a n)) (Z.shiftr b m).
(** camellia.c:187-233, the statements *)
Definition Camellia128_Encrypt_body (kw : cam_kw) : list cam_op :=
  [OpXL (K_LL kw);
   OpXR (K_LR kw);
   OpFR (K_AL kw);
   OpFL (K_AR kw);
   OpFR (sh (K_LL kw) 15 (K_LR kw) 49);
   OpFL (sh (K_LR kw) 15 (K_LL kw) 49);
   OpFR (sh (K_AL kw) 15 (K_AR kw) 49);
   OpFL (sh (K_AR kw) 15 (K_AL kw) 49);
   OpFLL (sh (K_AL kw) 30 (K_AR kw) 34);
   OpInvFLR (sh (K_AR kw) 30 (K_AL kw) 34);
   OpFR (sh (K_LL kw) 45 (K_LR kw) 19);
   OpFL (sh (K_LR kw) 45 (K_LL kw) 19);
   OpFR (sh (K_AL kw) 45 (K_AR kw) 19);
   OpFL (sh (K_LR kw) 60 (K_LL kw) 4);
   OpFR (sh (K_AL kw) 60 (K_AR kw) 4);
   OpFL (sh (K_AR kw) 60 (K_AL kw) 4);
   OpFLL (sh (K_LR kw) 13 (K_LL kw) 51);
   OpInvFLR (sh (K_LL kw) 13 (K_LR kw) 51);
   OpFR (sh (K_LR kw) 30 (K_LL kw) 34);
   OpFL (sh (K_LL kw) 30 (K_LR kw) 34);
   OpFR (sh (K_AR kw) 30 (K_AL kw) 34);
   OpFL (sh (K_AL kw) 30 (K_AR kw) 34);
   OpFR (sh (K_LR kw) 47 (K_LL kw) 17);
   OpFL (sh (K_LL kw) 47 (K_LR kw) 17);
   OpXR (sh (K_AR kw) 47 (K_AL kw) 17);
   OpXL (sh (K_AL kw) 47 (K_AR kw) 17)].
(** camellia.c:235-278, the statements *)
Definition Camellia128_Decrypt_body (kw : cam_kw) : list cam_op :=
  [OpXL (sh (K_AL kw) 47 (K_AR kw) 17);
   OpXR (sh (K_AR kw) 47 (K_AL kw) 17);
   OpFL (sh (K_LL kw) 47 (K_LR kw) 17);
   OpFR (sh (K_LR kw) 47 (K_LL kw) 17);
   OpFL (sh (K_AL kw) 30 (K_AR kw) 34);
   OpFR (sh (K_AR kw) 30 (K_AL kw) 34);
   OpFL (sh (K_LL kw) 30 (K_LR kw) 34);
   OpFR (sh (K_LR kw) 30 (K_LL kw) 34);
   OpFLR (sh (K_LL kw) 13 (K_LR kw) 51);
   OpInvFLL (sh (K_LR kw) 13 (K_LL kw) 51);
   OpFL (sh (K_AR kw) 60 (K_AL kw) 4);
   OpFR (sh (K_AL kw) 60 (K_AR kw) 4);
   OpFL (sh (K_LR kw) 60 (K_LL kw) 4);
   OpFR (sh (K_AL kw) 45 (K_AR kw) 19);
   OpFL (sh (K_LR kw) 45 (K_LL kw) 19);
   OpFR (sh (K_LL kw) 45 (K_LR kw) 19);
   OpFLR (sh (K_AR kw) 30 (K_AL kw) 34);
   OpInvFLL (sh (K_AL kw) 30 (K_AR kw) 34);
   OpFL (sh (K_AR kw) 15 (K_AL kw) 49);
   OpFR (sh (K_AL kw) 15 (K_AR kw) 49);
   OpFL (sh (K_LR kw) 15 (K_LL kw) 49);
   OpFR (sh (K_LL kw) 15 (K_LR kw) 49);
   OpFL (K_AR kw);
   OpFR (K_AL kw);
   OpXR (K_LR kw);
   OpXL (K_LL kw)].
(** camellia.c:280-333, the statements *)
Definition Camellia256_Encrypt_body (kw : cam_kw) : list cam_op :=
  [OpXL (K_LL kw);
   OpXR (K_LR kw);
   OpFR (K_BL kw);
   OpFL (K_BR kw);
   OpFR (sh (K_RL kw) 15 (K_RR kw) 49);
   OpFL (sh (K_RR kw) 15 (K_RL kw) 49);
   OpFR (sh (K_AL kw) 15 (K_AR kw) 49);
   OpFL (sh (K_AR kw) 15 (K_AL kw) 49);
   OpFLL (sh (K_RL kw) 30 (K_RR kw) 34);
   OpInvFLR (sh (K_RR kw) 30 (K_RL kw) 34);
   OpFR (sh (K_BL kw) 30 (K_BR kw) 34);
   OpFL (sh (K_BR kw) 30 (K_BL kw) 34);
   OpFR (sh (K_LL kw) 45 (K_LR kw) 19);
   OpFL (sh (K_LR kw) 45 (K_LL kw) 19);
   OpFR (sh (K_AL kw) 45 (K_AR kw) 19);
   OpFL (sh (K_AR kw) 45 (K_AL kw) 19);
   OpFLL (sh (K_LL kw) 60 (K_LR kw) 4);
   OpInvFLR (sh (K_LR kw) 60 (K_LL kw) 4);
   OpFR (sh (K_RL kw) 60 (K_RR kw) 4);
   OpFL (sh (K_RR kw) 60 (K_RL kw) 4);
   OpFR (sh (K_BL kw) 60 (K_BR kw) 4);
   OpFL (sh (K_BR kw) 60 (K_BL kw) 4);
   OpFR (sh (K_LR kw) 13 (K_LL kw) 51);
   OpFL (sh (K_LL kw) 13 (K_LR kw) 51);
   OpFLL (sh (K_AR kw) 13 (K_AL kw) 51);
   OpInvFLR (sh (K_AL kw) 13 (K_AR kw) 51);
   OpFR (sh (K_RR kw) 30 (K_RL kw) 34);
   OpFL (sh (K_RL kw) 30 (K_RR kw) 34);
   OpFR (sh (K_AR kw) 30 (K_AL kw) 34);
   OpFL (sh (K_AL kw) 30 (K_AR kw) 34);
   OpFR (sh (K_LR kw) 47 (K_LL kw) 17);
   OpFL (sh (K_LL kw) 47 (K_LR kw) 17);
   OpXR (sh (K_BR kw) 47 (K_BL kw) 17);
   OpXL (sh (K_BL kw) 47 (K_BR kw) 17)].
(** camellia.c:335-388, the statements *)
Definition Camellia256_Decrypt_body (kw : cam_kw) : list cam_op :=
  [OpXL (sh (K_BL kw) 47 (K_BR kw) 17);
   OpXR (sh (K_BR kw) 47 (K_BL kw) 17);
   OpFL (sh (K_LL kw) 47 (K_LR kw) 17);
   OpFR (sh (K_LR kw) 47 (K_LL kw) 17);
   OpFL (sh (K_AL kw) 30 (K_AR kw) 34);
   OpFR (sh (K_AR kw) 30 (K_AL kw) 34);
   OpFL (sh (K_RL kw) 30 (K_RR kw) 34);
   OpFR (sh (K_RR kw) 30 (K_RL kw) 34);
   OpFLR (sh (K_AL kw) 13 (K_AR kw) 51);
   OpInvFLL (sh (K_AR kw) 13 (K_AL kw) 51);
   OpFL (sh (K_LL kw) 13 (K_LR kw) 51);
   OpFR (sh (K_LR kw) 13 (K_LL kw) 51);
   OpFL (sh (K_BR kw) 60 (K_BL kw) 4);
   OpFR (sh (K_BL kw) 60 (K_BR kw) 4);
   OpFL (sh (K_RR kw) 60 (K_RL kw) 4);
   OpFR (sh (K_RL kw) 60 (K_RR kw) 4);
   OpFLR (sh (K_LR kw) 60 (K_LL kw) 4);
   OpInvFLL (sh (K_LL kw) 60 (K_LR kw) 4);
   OpFL (sh (K_AR kw) 45 (K_AL kw) 19);
   OpFR (sh (K_AL kw) 45 (K_AR kw) 19);
   OpFL (sh (K_LR kw) 45 (K_LL kw) 19);
   OpFR (sh (K_LL kw) 45 (K_LR kw) 19);
   OpFL (sh (K_BR kw) 30 (K_BL kw) 34);
   OpFR (sh (K_BL kw) 30 (K_BR kw) 34);
   OpFLR (sh (K_RR kw) 30 (K_RL kw) 34);
   OpInvFLL (sh (K_RL kw) 30 (K_RR kw) 34);
   OpFL (sh (K_AR kw) 15 (K_AL kw) 49);
   OpFR (sh (K_AL kw) 15 (K_AR kw) 49);
   OpFL (sh (K_RR kw) 15 (K_RL kw) 49);
   OpFR (sh (K_RL kw) 15 (K_RR kw) 49);
   OpFL (K_BR kw);
   OpFR (K_BL kw);
   OpXR (K_LR kw);
   OpXL (K_LL kw)].
(** camellia.c:187-388: loads and stores around the statements *)
Definition cam_encrypt (body : list cam_op) (inp : list Z) : list Z :=
  let '(l, r) := fold_left cam_exec body (be_val (slice 0 8 inp), be_val (slice 1 8 inp)) in
  be_bytes 8 r ++ be_bytes 8 l.
Definition cam_decrypt (body : list cam_op) (inp : list Z) : list Z :=
  let '(l, r) := fold_left cam_exec body (be_val (slice 1 8 inp), be_val (slice 0 8 inp)) in
  be_bytes 8 l ++ be_bytes 8 r.
Definition Camellia128_Encrypt (kw : cam_kw) := cam_encrypt (Camellia128_Encrypt_body kw).
Definition Camellia128_Decrypt (kw : cam_kw) := cam_decrypt (Camellia128_Decrypt_body kw).
Definition Camellia256_Encrypt (kw : cam_kw) := cam_encrypt (Camellia256_Encrypt_body kw).
Definition Camellia256_Decrypt (kw : cam_kw) := cam_decrypt (Camellia256_Decrypt_body kw).
