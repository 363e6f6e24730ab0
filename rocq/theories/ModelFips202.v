(** Model of fips202.c.  The body of the permutation was transcribed mechanically
    from the C text, statement by statement. *)
From Verif Require Import Base.
Local Open Scope N_scope.

(** fips202.h:4-5 *)
Definition SHAKE128_RATE : nat := 168%nat.
Definition SHAKE256_RATE : nat := 136%nat.
(** fips202.c:14 *)
Definition NROUNDS : nat := 24%nat.
(** fips202.c:15 [((a << offset) ^ (a >> (64-offset)))] on uint64_t *)
Definition ROL (a : N) (offset : N) : N :=
  N.lxor (u64 (N.shiftl a offset)) (N.shiftr a (64 - offset)).
(** [~a] on uint64_t *)
Definition not64 (a : N) : N := N.lxor a (2 ^ 64 - 1).

(** fips202.c:17-25 load64: [r |= (unsigned long long)x[i] << 8 * i] for i < 8.
    [u8] states that x[i] is an unsigned char. *)
Definition load64 (x : bytes) : N :=
  fold_left (fun r i => N.lor r (u64 (N.shiftl (u8 (nth i x 0)) (N.of_nat (8 * i))))) (seq 0 8) 0.

(** fips202.c:27-35 store64: [x[i] = u; u >>= 8;] for i < 8 *)
Fixpoint store64_loop (k : nat) (u : N) : bytes :=
  match k with O => [] | S k' => u8 u :: store64_loop k' (N.shiftr u 8) end.
Definition store64 (u : N) : bytes := store64_loop 8 u.

(** fips202.c:37-62 *)
Definition KeccakF_RoundConstants : list N :=
  [0x0000000000000001;
   0x0000000000008082;
   0x800000000000808a;
   0x8000000080008000;
   0x000000000000808b;
   0x0000000080000001;
   0x8000000080008081;
   0x8000000000008009;
   0x000000000000008a;
   0x0000000000000088;
   0x0000000080008009;
   0x000000008000000a;
   0x000000008000808b;
   0x800000000000008b;
   0x8000000000008089;
   0x8000000000008003;
   0x8000000000008002;
   0x8000000000000080;
   0x000000000000800a;
   0x800000008000000a;
   0x8000000080008081;
   0x8000000000008080;
   0x0000000080000001;
   0x8000000080008008].

(** The 25 lanes of the state, state[0..24]. *)
Record lanes := mkLanes { l0 : N; l1 : N; l2 : N; l3 : N; l4 : N; l5 : N; l6 : N; l7 : N; l8 : N; l9 : N; l10 : N; l11 : N; l12 : N; l13 : N; l14 : N; l15 : N; l16 : N; l17 : N; l18 : N; l19 : N; l20 : N; l21 : N; l22 : N; l23 : N; l24 : N }.

(** fips202.c:111-298: one iteration of the round loop (two Keccak rounds). *)
Definition keccak_two_rounds (rc0 rc1 : N) (st : lanes) : lanes :=
  let Aba := l0 st in
  let Abe := l1 st in
  let Abi := l2 st in
  let Abo := l3 st in
  let Abu := l4 st in
  let Aga := l5 st in
  let Age := l6 st in
  let Agi := l7 st in
  let Ago := l8 st in
  let Agu := l9 st in
  let Aka := l10 st in
  let Ake := l11 st in
  let Aki := l12 st in
  let Ako := l13 st in
  let Aku := l14 st in
  let Ama := l15 st in
  let Ame := l16 st in
  let Ami := l17 st in
  let Amo := l18 st in
  let Amu := l19 st in
  let Asa := l20 st in
  let Ase := l21 st in
  let Asi := l22 st in
  let Aso := l23 st in
  let Asu := l24 st in
  let BCa := (N.lxor (N.lxor (N.lxor (N.lxor Aba Aga) Aka) Ama) Asa) in (* 111 *)
  let BCe := (N.lxor (N.lxor (N.lxor (N.lxor Abe Age) Ake) Ame) Ase) in (* 112 *)
  let BCi := (N.lxor (N.lxor (N.lxor (N.lxor Abi Agi) Aki) Ami) Asi) in (* 113 *)
  let BCo := (N.lxor (N.lxor (N.lxor (N.lxor Abo Ago) Ako) Amo) Aso) in (* 114 *)
  let BCu := (N.lxor (N.lxor (N.lxor (N.lxor Abu Agu) Aku) Amu) Asu) in (* 115 *)
  let Da := (N.lxor BCu (ROL BCe 1)) in (* 118 *)
  let De := (N.lxor BCa (ROL BCi 1)) in (* 119 *)
  let Di := (N.lxor BCe (ROL BCo 1)) in (* 120 *)
  let Do_ := (N.lxor BCi (ROL BCu 1)) in (* 121 *)
  let Du := (N.lxor BCo (ROL BCa 1)) in (* 122 *)
  let Aba := N.lxor Aba Da in (* 124 *)
  let BCa := Aba in (* 125 *)
  let Age := N.lxor Age De in (* 126 *)
  let BCe := (ROL Age 44) in (* 127 *)
  let Aki := N.lxor Aki Di in (* 128 *)
  let BCi := (ROL Aki 43) in (* 129 *)
  let Amo := N.lxor Amo Do_ in (* 130 *)
  let BCo := (ROL Amo 21) in (* 131 *)
  let Asu := N.lxor Asu Du in (* 132 *)
  let BCu := (ROL Asu 14) in (* 133 *)
  let Eba := (N.lxor BCa (N.land (not64 BCe) BCi)) in (* 134 *)
  let Eba := N.lxor Eba rc0 in (* 135 *)
  let Ebe := (N.lxor BCe (N.land (not64 BCi) BCo)) in (* 136 *)
  let Ebi := (N.lxor BCi (N.land (not64 BCo) BCu)) in (* 137 *)
  let Ebo := (N.lxor BCo (N.land (not64 BCu) BCa)) in (* 138 *)
  let Ebu := (N.lxor BCu (N.land (not64 BCa) BCe)) in (* 139 *)
  let Abo := N.lxor Abo Do_ in (* 141 *)
  let BCa := (ROL Abo 28) in (* 142 *)
  let Agu := N.lxor Agu Du in (* 143 *)
  let BCe := (ROL Agu 20) in (* 144 *)
  let Aka := N.lxor Aka Da in (* 145 *)
  let BCi := (ROL Aka 3) in (* 146 *)
  let Ame := N.lxor Ame De in (* 147 *)
  let BCo := (ROL Ame 45) in (* 148 *)
  let Asi := N.lxor Asi Di in (* 149 *)
  let BCu := (ROL Asi 61) in (* 150 *)
  let Ega := (N.lxor BCa (N.land (not64 BCe) BCi)) in (* 151 *)
  let Ege := (N.lxor BCe (N.land (not64 BCi) BCo)) in (* 152 *)
  let Egi := (N.lxor BCi (N.land (not64 BCo) BCu)) in (* 153 *)
  let Ego := (N.lxor BCo (N.land (not64 BCu) BCa)) in (* 154 *)
  let Egu := (N.lxor BCu (N.land (not64 BCa) BCe)) in (* 155 *)
  let Abe := N.lxor Abe De in (* 157 *)
  let BCa := (ROL Abe 1) in (* 158 *)
  let Agi := N.lxor Agi Di in (* 159 *)
  let BCe := (ROL Agi 6) in (* 160 *)
  let Ako := N.lxor Ako Do_ in (* 161 *)
  let BCi := (ROL Ako 25) in (* 162 *)
  let Amu := N.lxor Amu Du in (* 163 *)
  let BCo := (ROL Amu 8) in (* 164 *)
  let Asa := N.lxor Asa Da in (* 165 *)
  let BCu := (ROL Asa 18) in (* 166 *)
  let Eka := (N.lxor BCa (N.land (not64 BCe) BCi)) in (* 167 *)
  let Eke := (N.lxor BCe (N.land (not64 BCi) BCo)) in (* 168 *)
  let Eki := (N.lxor BCi (N.land (not64 BCo) BCu)) in (* 169 *)
  let Eko := (N.lxor BCo (N.land (not64 BCu) BCa)) in (* 170 *)
  let Eku := (N.lxor BCu (N.land (not64 BCa) BCe)) in (* 171 *)
  let Abu := N.lxor Abu Du in (* 173 *)
  let BCa := (ROL Abu 27) in (* 174 *)
  let Aga := N.lxor Aga Da in (* 175 *)
  let BCe := (ROL Aga 36) in (* 176 *)
  let Ake := N.lxor Ake De in (* 177 *)
  let BCi := (ROL Ake 10) in (* 178 *)
  let Ami := N.lxor Ami Di in (* 179 *)
  let BCo := (ROL Ami 15) in (* 180 *)
  let Aso := N.lxor Aso Do_ in (* 181 *)
  let BCu := (ROL Aso 56) in (* 182 *)
  let Ema := (N.lxor BCa (N.land (not64 BCe) BCi)) in (* 183 *)
  let Eme := (N.lxor BCe (N.land (not64 BCi) BCo)) in (* 184 *)
  let Emi := (N.lxor BCi (N.land (not64 BCo) BCu)) in (* 185 *)
  let Emo := (N.lxor BCo (N.land (not64 BCu) BCa)) in (* 186 *)
  let Emu := (N.lxor BCu (N.land (not64 BCa) BCe)) in (* 187 *)
  let Abi := N.lxor Abi Di in (* 189 *)
  let BCa := (ROL Abi 62) in (* 190 *)
  let Ago := N.lxor Ago Do_ in (* 191 *)
  let BCe := (ROL Ago 55) in (* 192 *)
  let Aku := N.lxor Aku Du in (* 193 *)
  let BCi := (ROL Aku 39) in (* 194 *)
  let Ama := N.lxor Ama Da in (* 195 *)
  let BCo := (ROL Ama 41) in (* 196 *)
  let Ase := N.lxor Ase De in (* 197 *)
  let BCu := (ROL Ase 2) in (* 198 *)
  let Esa := (N.lxor BCa (N.land (not64 BCe) BCi)) in (* 199 *)
  let Ese := (N.lxor BCe (N.land (not64 BCi) BCo)) in (* 200 *)
  let Esi := (N.lxor BCi (N.land (not64 BCo) BCu)) in (* 201 *)
  let Eso := (N.lxor BCo (N.land (not64 BCu) BCa)) in (* 202 *)
  let Esu := (N.lxor BCu (N.land (not64 BCa) BCe)) in (* 203 *)
  let BCa := (N.lxor (N.lxor (N.lxor (N.lxor Eba Ega) Eka) Ema) Esa) in (* 206 *)
  let BCe := (N.lxor (N.lxor (N.lxor (N.lxor Ebe Ege) Eke) Eme) Ese) in (* 207 *)
  let BCi := (N.lxor (N.lxor (N.lxor (N.lxor Ebi Egi) Eki) Emi) Esi) in (* 208 *)
  let BCo := (N.lxor (N.lxor (N.lxor (N.lxor Ebo Ego) Eko) Emo) Eso) in (* 209 *)
  let BCu := (N.lxor (N.lxor (N.lxor (N.lxor Ebu Egu) Eku) Emu) Esu) in (* 210 *)
  let Da := (N.lxor BCu (ROL BCe 1)) in (* 213 *)
  let De := (N.lxor BCa (ROL BCi 1)) in (* 214 *)
  let Di := (N.lxor BCe (ROL BCo 1)) in (* 215 *)
  let Do_ := (N.lxor BCi (ROL BCu 1)) in (* 216 *)
  let Du := (N.lxor BCo (ROL BCa 1)) in (* 217 *)
  let Eba := N.lxor Eba Da in (* 219 *)
  let BCa := Eba in (* 220 *)
  let Ege := N.lxor Ege De in (* 221 *)
  let BCe := (ROL Ege 44) in (* 222 *)
  let Eki := N.lxor Eki Di in (* 223 *)
  let BCi := (ROL Eki 43) in (* 224 *)
  let Emo := N.lxor Emo Do_ in (* 225 *)
  let BCo := (ROL Emo 21) in (* 226 *)
  let Esu := N.lxor Esu Du in (* 227 *)
  let BCu := (ROL Esu 14) in (* 228 *)
  let Aba := (N.lxor BCa (N.land (not64 BCe) BCi)) in (* 229 *)
  let Aba := N.lxor Aba rc1 in (* 230 *)
  let Abe := (N.lxor BCe (N.land (not64 BCi) BCo)) in (* 231 *)
  let Abi := (N.lxor BCi (N.land (not64 BCo) BCu)) in (* 232 *)
  let Abo := (N.lxor BCo (N.land (not64 BCu) BCa)) in (* 233 *)
  let Abu := (N.lxor BCu (N.land (not64 BCa) BCe)) in (* 234 *)
  let Ebo := N.lxor Ebo Do_ in (* 236 *)
  let BCa := (ROL Ebo 28) in (* 237 *)
  let Egu := N.lxor Egu Du in (* 238 *)
  let BCe := (ROL Egu 20) in (* 239 *)
  let Eka := N.lxor Eka Da in (* 240 *)
  let BCi := (ROL Eka 3) in (* 241 *)
  let Eme := N.lxor Eme De in (* 242 *)
  let BCo := (ROL Eme 45) in (* 243 *)
  let Esi := N.lxor Esi Di in (* 244 *)
  let BCu := (ROL Esi 61) in (* 245 *)
  let Aga := (N.lxor BCa (N.land (not64 BCe) BCi)) in (* 246 *)
  let Age := (N.lxor BCe (N.land (not64 BCi) BCo)) in (* 247 *)
  let Agi := (N.lxor BCi (N.land (not64 BCo) BCu)) in (* 248 *)
  let Ago := (N.lxor BCo (N.land (not64 BCu) BCa)) in (* 249 *)
  let Agu := (N.lxor BCu (N.land (not64 BCa) BCe)) in (* 250 *)
  let Ebe := N.lxor Ebe De in (* 252 *)
  let BCa := (ROL Ebe 1) in (* 253 *)
  let Egi := N.lxor Egi Di in (* 254 *)
  let BCe := (ROL Egi 6) in (* 255 *)
  let Eko := N.lxor Eko Do_ in (* 256 *)
  let BCi := (ROL Eko 25) in (* 257 *)
  let Emu := N.lxor Emu Du in (* 258 *)
  let BCo := (ROL Emu 8) in (* 259 *)
  let Esa := N.lxor Esa Da in (* 260 *)
  let BCu := (ROL Esa 18) in (* 261 *)
  let Aka := (N.lxor BCa (N.land (not64 BCe) BCi)) in (* 262 *)
  let Ake := (N.lxor BCe (N.land (not64 BCi) BCo)) in (* 263 *)
  let Aki := (N.lxor BCi (N.land (not64 BCo) BCu)) in (* 264 *)
  let Ako := (N.lxor BCo (N.land (not64 BCu) BCa)) in (* 265 *)
  let Aku := (N.lxor BCu (N.land (not64 BCa) BCe)) in (* 266 *)
  let Ebu := N.lxor Ebu Du in (* 268 *)
  let BCa := (ROL Ebu 27) in (* 269 *)
  let Ega := N.lxor Ega Da in (* 270 *)
  let BCe := (ROL Ega 36) in (* 271 *)
  let Eke := N.lxor Eke De in (* 272 *)
  let BCi := (ROL Eke 10) in (* 273 *)
  let Emi := N.lxor Emi Di in (* 274 *)
  let BCo := (ROL Emi 15) in (* 275 *)
  let Eso := N.lxor Eso Do_ in (* 276 *)
  let BCu := (ROL Eso 56) in (* 277 *)
  let Ama := (N.lxor BCa (N.land (not64 BCe) BCi)) in (* 278 *)
  let Ame := (N.lxor BCe (N.land (not64 BCi) BCo)) in (* 279 *)
  let Ami := (N.lxor BCi (N.land (not64 BCo) BCu)) in (* 280 *)
  let Amo := (N.lxor BCo (N.land (not64 BCu) BCa)) in (* 281 *)
  let Amu := (N.lxor BCu (N.land (not64 BCa) BCe)) in (* 282 *)
  let Ebi := N.lxor Ebi Di in (* 284 *)
  let BCa := (ROL Ebi 62) in (* 285 *)
  let Ego := N.lxor Ego Do_ in (* 286 *)
  let BCe := (ROL Ego 55) in (* 287 *)
  let Eku := N.lxor Eku Du in (* 288 *)
  let BCi := (ROL Eku 39) in (* 289 *)
  let Ema := N.lxor Ema Da in (* 290 *)
  let BCo := (ROL Ema 41) in (* 291 *)
  let Ese := N.lxor Ese De in (* 292 *)
  let BCu := (ROL Ese 2) in (* 293 *)
  let Asa := (N.lxor BCa (N.land (not64 BCe) BCi)) in (* 294 *)
  let Ase := (N.lxor BCe (N.land (not64 BCi) BCo)) in (* 295 *)
  let Asi := (N.lxor BCi (N.land (not64 BCo) BCu)) in (* 296 *)
  let Aso := (N.lxor BCo (N.land (not64 BCu) BCa)) in (* 297 *)
  let Asu := (N.lxor BCu (N.land (not64 BCa) BCe)) in (* 298 *)
  mkLanes Aba Abe Abi Abo Abu Aga Age Agi Ago Agu Aka Ake Aki Ako Aku Ama Ame Ami Amo Amu Asa Ase Asi Aso Asu.

(** fips202.c:65-327 KeccakF1600_StatePermute: [for (round = 0; round < NROUNDS; round += 2)] *)
Fixpoint keccak_loop (rcs : list N) (st : lanes) : lanes :=
  match rcs with
  | r0 :: r1 :: t => keccak_loop t (keccak_two_rounds r0 r1 st)
  | _ => st
  end.
Definition KeccakF1600_StatePermute (st : lanes) : lanes := keccak_loop KeccakF_RoundConstants st.

(** [uint64_t s[25]] as a list, and back. *)
Definition lanes_to_list (s : lanes) : list N :=
  [l0 s; l1 s; l2 s; l3 s; l4 s; l5 s; l6 s; l7 s; l8 s; l9 s; l10 s; l11 s; l12 s; l13 s; l14 s; l15 s; l16 s; l17 s; l18 s; l19 s; l20 s; l21 s; l22 s; l23 s; l24 s].
Definition list_to_lanes (l : list N) : lanes :=
  mkLanes (nth 0 l 0) (nth 1 l 0) (nth 2 l 0) (nth 3 l 0) (nth 4 l 0) (nth 5 l 0) (nth 6 l 0) (nth 7 l 0) (nth 8 l 0) (nth 9 l 0) (nth 10 l 0) (nth 11 l 0) (nth 12 l 0) (nth 13 l 0) (nth 14 l 0) (nth 15 l 0) (nth 16 l 0) (nth 17 l 0) (nth 18 l 0) (nth 19 l 0) (nth 20 l 0) (nth 21 l 0) (nth 22 l 0) (nth 23 l 0) (nth 24 l 0).

(** [for (i = 0; i < r / 8; ++i) s[i] ^= load64(m + 8 * i);] on the first lanes. *)
Fixpoint xor_lanes (k : nat) (s : list N) (m : bytes) : list N :=
  match k, s with
  | S k', x :: t => N.lxor x (load64 (firstn 8 m)) :: xor_lanes k' t (skipn 8 m)
  | _, _ => s
  end.

(** fips202.c:329-356 keccak_absorb.  The [while (mlen >= r)] loop runs on fuel. *)
Fixpoint keccak_absorb_loop (fuel : nat) (s : lanes) (r : nat) (m : bytes) (p : N) : res lanes :=
  match fuel with
  | O => NoFuel
  | S f =>
    if (r <=? length m)%nat then
      let s1 := list_to_lanes (xor_lanes (r / 8) (lanes_to_list s) m) in
      keccak_absorb_loop f (KeccakF1600_StatePermute s1) r (skipn r m) p
    else
      (* t[0..r-1] = 0; t[0..mlen-1] = m; t[mlen] = p; t[r-1] |= 128 *)
      let t0 := m ++ repeat 0 (r - length m) in
      let* t1 := wrc t0 (length m) p in
      let* x := rdc t1 (r - 1) in
      let* t2 := wrc t1 (r - 1) (N.lor x 128) in
      Ok (list_to_lanes (xor_lanes (r / 8) (lanes_to_list s) t2))
  end.
Definition keccak_absorb (s : lanes) (r : nat) (m : bytes) (p : N) : res lanes :=
  keccak_absorb_loop (S (length m)) s r m p.

(** fips202.c:358-371 keccak_squeezeblocks: returns the bytes written to h and the state. *)
Fixpoint keccak_squeezeblocks (nblocks : nat) (s : lanes) (r : nat) : bytes * lanes :=
  match nblocks with
  | O => ([], s)
  | S k =>
      let s1 := KeccakF1600_StatePermute s in
      let blk := concat (map store64 (firstn (r / 8) (lanes_to_list s1))) in
      let '(rest, s2) := keccak_squeezeblocks k s1 r in
      (blk ++ rest, s2)
  end.

(** fips202.c:373-394 shake128 and 396-417 shake256 (identical up to the rate). *)
Definition shake (rate outlen : nat) (inp : bytes) : res bytes :=
  let* s := keccak_absorb (list_to_lanes (repeat 0 25)) rate inp 31 in
  let '(blocks, s1) := keccak_squeezeblocks (outlen / rate) s rate in
  if (outlen mod rate =? 0)%nat then Ok blocks
  else
    let '(dd, _) := keccak_squeezeblocks 1 s1 rate in
    Ok (blocks ++ firstn (outlen mod rate) dd).
Definition shake128 (outlen : nat) (inp : bytes) : res bytes := shake SHAKE128_RATE outlen inp.
Definition shake256 (outlen : nat) (inp : bytes) : res bytes := shake SHAKE256_RATE outlen inp.
