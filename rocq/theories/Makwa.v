(** Makwa.v -- model of /repo/makwa (digest.go, makwa.go, params.go).
    big.Int values that occur are non-negative: they are N.  The hash function params.Hash is a parameter
    [H] (its one-shot function) with block size [bs] and output size [r]; crypto/hmac is modelled from its
    definition.  A nil salt (random salt) is not modelled: the salt is an argument. *)
From Coq Require Import String Ascii List NArith ZArith Arith Lia Bool.
From Verif Require Import Base Words.
Import ListNotations.

(** ** digest.go: the base64 codec *)
(** digest.go:118 alphabet *)
Definition b64_alphabet : list N := map (fun c => N_of_ascii c) (list_ascii_of_string "ABCDEFGHIJKLMNOPQRSTUVWXYZabcdefghijklmnopqrstuvwxyz0123456789+/").
Definition al (w : N) : N := at_ b64_alphabet (N.to_nat w).
(** digest.go:120-149 b64Encode *)
Fixpoint b64Encode (b : list N) : list N :=
  match b with
  | b0 :: b1 :: b2 :: rest =>
      let w := N.land b0 255 in
      let w := (N.shiftl w 8 + N.land b1 255)%N in
      let w := (N.shiftl w 8 + N.land b2 255)%N in
      al (N.shiftr w 18) :: al (N.land (N.shiftr w 12) 63) :: al (N.land (N.shiftr w 6) 63) :: al (N.land w 63) :: b64Encode rest
  | [b0] => let w := N.land b0 255 in [al (N.shiftr w 2); al (N.land (N.shiftl w 4) 63)]
  | [b0; b1] =>
      let w := (N.shiftl (N.land b0 255) 8 + N.land b1 255)%N in
      [al (N.shiftr w 10); al (N.land (N.shiftr w 4) 63); al (N.land (N.shiftl w 2) 63)]
  | [] => []
  end.
(** digest.go:158-172: one character; None is ErrBadBase64.  (The d < 0 branch is dead: d is never negative,
    so numEq stays 0.) *)
Definition b64_digit (c : N) : option N :=
  if (65 <=? c)%N && (c <=? 90)%N then Some (c - 65)%N
  else if (97 <=? c)%N && (c <=? 122)%N then Some (c - (97 - 26))%N
  else if (48 <=? c)%N && (c <=? 57)%N then Some (c + (52 - 48))%N
  else if (c =? 43)%N then Some 62%N
  else if (c =? 47)%N then Some 63%N
  else None.
(** digest.go:154-205 b64Decode; acc stays below 2^24, so int32 and uint32 shifts agree on the byte taken. *)
Fixpoint b64_dec_loop (b : list N) (acc : N) (k : nat) (out : list N) : option (list N) :=
  match b with
  | c :: b =>
      match b64_digit c with
      | None => None
      | Some d =>
          let acc := w32 (w32 (N.shiftl acc 6) + d) in
          if S k =? 4 then
            b64_dec_loop b 0 0 (out ++ [w8 (N.lor (N.shiftr acc 16) (w32 (N.shiftl acc 16)));
                                        w8 (N.lor (N.shiftr acc 8) (w32 (N.shiftl acc 24))); w8 acc])
          else b64_dec_loop b acc (S k) out
      end
  | [] =>
      match k with
      | 0 => Some out
      | 1 => None
      | 2 => Some (out ++ [w8 (N.lor (N.shiftr acc 4) (w32 (N.shiftl acc 28)))])
      | 3 => Some (out ++ [w8 (N.lor (N.shiftr acc 10) (w32 (N.shiftl acc 22)));
                           w8 (N.lor (N.shiftr acc 2) (w32 (N.shiftl acc 30)))])
      | _ => Some out
      end
  end.
Definition b64Decode (b : list N) : option (list N) := b64_dec_loop b 0 0 [].

(** ** makwa.go:257-269 wfMant on the uint32 conversion of the work factor.
    The loop halves an even number above 3; fuel 32 suffices (the rotation's high bit is 0). *)
Fixpoint wf_loop (fuel : nat) (wf j : N) : N * N :=
  match fuel with
  | 0 => (wf, j)
  | S fuel => if (3 <? wf)%N && (N.land wf 1 =? 0)%N
              then wf_loop fuel (N.lor (N.shiftr wf 1) (w32 (N.shiftl wf 31))) (w32 (j + 1))
              else (wf, j)
  end.
Definition wfMant (wf : N) : option (N * N) :=
  let '(wf, j) := wf_loop 32 wf 0 in
  if (wf =? 2)%N || (wf =? 3)%N then Some (wf, j) else None.
(** uint32(int) *)
Definition u32_of_int (x : Z) : N := Z.to_N (x mod 4294967296).

(** digest.go:11-18 *)
Record digest : Type := mkdigest
  { dModulusID : list N; dHash : list N; dSalt : list N; dWorkFactor : Z; dPreHash : bool; dPostHashLen : Z }.

(** fmt.Sprintf("%1d%02d"): decimal digits, the second padded to at least two digits. *)
Fixpoint dec_loop (fuel : nat) (n : N) (acc : list N) : list N :=
  match fuel with
  | 0 => acc
  | S fuel => let acc := (48 + n mod 10)%N :: acc in if (n / 10 =? 0)%N then acc else dec_loop fuel (n / 10) acc
  end.
Definition dec (n : N) : list N := dec_loop 20 n [].
Definition dec02 (n : N) : list N := let s := dec n in if Datatypes.length s <? 2 then 48%N :: s else s.

(** digest.go:26-63 MarshalText *)
Definition underscore : N := 95.
Definition MarshalText (d : digest) : option (list N) :=
  let kind := if dPreHash d then (if (0 <? dPostHashLen d)%Z then 98%N else 114%N)
              else (if (0 <? dPostHashLen d)%Z then 115%N else 110%N) in
  match wfMant (u32_of_int (dWorkFactor d)) with
  | None => None
  | Some (man, log) =>
      Some (b64Encode (dModulusID d) ++ [underscore] ++ [kind] ++ dec man ++ dec02 log ++ [underscore]
            ++ b64Encode (dSalt d) ++ [underscore] ++ b64Encode (dHash d))
  end.

(** bytes.Split(text, "_") *)
Fixpoint split_at (sep : N) (cur : list N) (s : list N) : list (list N) :=
  match s with
  | [] => [cur]
  | c :: s => if (c =? sep)%N then cur :: split_at sep [] s else split_at sep (cur ++ [c]) s
  end.
(** strconv.Atoi: optional sign, at least one decimal digit, result in the int64 range; None is an error. *)
Fixpoint atoi_loop (s : list N) (acc : N) : option N :=
  match s with
  | [] => Some acc
  | c :: s => if (48 <=? c)%N && (c <=? 57)%N then atoi_loop s (acc * 10 + (c - 48))%N else None
  end.
Definition atoi (s : list N) : option Z :=
  match s with
  | [] => None
  | c :: t =>
      let neg := (c =? 45)%N in
      let ds := if (c =? 45)%N || (c =? 43)%N then t else s in
      match ds with
      | [] => None
      | _ => match atoi_loop ds 0 with
             | None => None
             | Some n => let v := if neg then (- Z.of_N n)%Z else Z.of_N n in
                         if ((- 2 ^ 63 <=? v) && (v <? 2 ^ 63))%Z then Some v else None
             end
      end
  end.
(** int (64-bit) wrap-around *)
Definition int64 (x : Z) : Z := ((x + 2 ^ 63) mod 2 ^ 64 - 2 ^ 63)%Z.
(** digest.go:81-84: d.WorkFactor = 1; for i := 0; i <= log; i++ { d.WorkFactor *= mantissa }.
    The loop runs log+1 times (not at all for negative log). *)
Definition wf_power (mantissa log : Z) : Z := Nat.iter (Z.to_nat (log + 1)) (fun w => int64 (w * mantissa)) 1%Z.
Inductive res (A : Type) : Type := Ok (a : A) | Err | Panic.
Arguments Ok {A}. Arguments Err {A}. Arguments Panic {A}.
(** digest.go:66-116 UnmarshalText.  parts[i] and the slices of parts[1] panic when out of range; the
    receiver is overwritten field by field, here only the final value of a successful call is returned.
    An unknown kind letter leaves PreHash and PostHashLen as they were ([d0]). *)
Definition UnmarshalText (d0 : digest) (text : list N) : res digest :=
  let parts := split_at underscore [] text in
  match b64Decode (nth 0 parts []) with
  | None => Err
  | Some id =>
    match nth_error parts 1 with
    | None => Panic
    | Some p1 =>
      if Datatypes.length p1 <? 2 then Panic else
      match atoi (slice p1 1 2) with
      | None => Err
      | Some mantissa =>
        match atoi (skipn 2 p1) with
        | None => Err
        | Some log =>
          match nth_error parts 2 with
          | None => Panic
          | Some p2 =>
            match b64Decode p2 with
            | None => Err
            | Some salt =>
              match nth_error parts 3 with
              | None => Panic
              | Some p3 =>
                match b64Decode p3 with
                | None => Err
                | Some h =>
                  let kind := at_ p1 0 in
                  let n := Z.of_nat (Datatypes.length h) in
                  let '(pre, post) :=
                    if (kind =? 98)%N then (true, n)
                    else if (kind =? 114)%N then (true, 0%Z)
                    else if (kind =? 115)%N then (false, n)
                    else if (kind =? 110)%N then (false, 0%Z)
                    else (dPreHash d0, dPostHashLen d0) in
                  Ok (mkdigest id h salt (wf_power mantissa log) pre post)
                end
              end
            end
          end
        end
      end
    end
  end.

(** ** makwa.go *)
Section Params.
Variable H : list N -> list N.
Variable bs r : nat.
(** makwa.go:251-255 mac: crypto/hmac *)
Definition mac (k v : list N) : list N :=
  let k := if bs <? Datatypes.length k then H k else k in
  let k := k ++ zeros (bs - Datatypes.length k) in
  H (map (fun b => N.lxor b 92) k ++ H (map (fun b => N.lxor b 54) k ++ v)).
(** makwa.go:238-248: while len(t) < outLen { v = mac(k, v); t = append(t, v...) } *)
Fixpoint kdf_loop (fuel : nat) (k v t : list N) (outLen : nat) : list N :=
  match fuel with
  | 0 => t
  | S fuel => if Datatypes.length t <? outLen then let v := mac k v in kdf_loop fuel k v (t ++ v) outLen else t
  end.
(** makwa.go:207-249 kdf.  Every iteration adds r bytes; fuel outLen is enough for r > 0 (r = 0 does not
    terminate in Go). *)
Definition kdf (data : list N) (outLen : nat) : list N :=
  let v := repeat 1%N r in
  let k := zeros r in
  let k := mac k (v ++ [0%N] ++ data) in
  let v := mac k v in
  let k := mac k (v ++ [1%N] ++ data) in
  let v := mac k v in
  firstn outLen (kdf_loop outLen k v [] outLen).

(** big.Int: Bytes (minimal big-endian), BitLen *)
Definition byte_len (x : N) : nat := (N.to_nat (N.size x) + 7) / 8.
Definition big_bytes (x : N) : list N := be_bytes (byte_len x) x.
(** params.go:17-19 ModulusID *)
Definition ModulusID (n : N) : list N := kdf (big_bytes n) 8.
(** makwa.go:197-205 pad *)
Definition mk_pad (n x : N) : list N :=
  let modLen := byte_len n in
  let out := big_bytes x in
  let out := if Datatypes.length out <? modLen then zeros (modLen - Datatypes.length out) ++ out else out in
  firstn modLen out.
(** makwa.go:172-174, 66-68: x = Exp(x, 2, N), repeated *)
Definition square_mod (n x : N) : N := ((x * x) mod n)%N.
Definition squarings (k : nat) (n x : N) : N := Nat.iter k (square_mod n) x.
(** makwa.go:138-190 Hash; None is an error. *)
Definition mk_hash (n : N) (password salt : list N) (wf : Z) (pre : bool) (post : Z) : option digest :=
  match wfMant (u32_of_int wf) with
  | None => None
  | Some _ =>
    let password := if pre then kdf password 64 else password in
    let k := N.to_nat (N.size n) / 8 in
    if k <? 160 then None else
    let u := Datatypes.length password in
    if (255 <? u) || (k - 32 <? u) then None else
    let sb := kdf (salt ++ password ++ [N.of_nat u]) (k - 2 - u) in
    let xb := [0%N] ++ sb ++ password ++ [N.of_nat u] in
    let x := be_val xb in
    let x := squarings (Z.to_nat (wf + 1)) n x in
    let out := mk_pad n x in
    let out := if (0 <? post)%Z then kdf out (Z.to_nat post) else out in
    Some (mkdigest (ModulusID n) out salt wf pre post)
  end.
(** makwa.go:34-56 CheckPassword *)
Inductive verdict : Type := Accept | WrongParams | BadPassword | OtherError.
Definition CheckPassword (n : N) (d : digest) (password : list N) : verdict :=
  if list_eq_dec N.eq_dec (dModulusID d) (ModulusID n) then
    match mk_hash n password (dSalt d) (dWorkFactor d) (dPreHash d) (dPostHashLen d) with
    | None => OtherError
    | Some e => if list_eq_dec N.eq_dec (dHash d) (dHash e) then Accept else BadPassword
    end
  else WrongParams.
(** makwa.go:59-76 Extend; None is an error. *)
Definition Extend (n : N) (d : digest) (wf : Z) : option digest :=
  if list_eq_dec N.eq_dec (dModulusID d) (ModulusID n) then
    if (0 <? dPostHashLen d)%Z then None else
    let x := be_val (dHash d) in
    let x := squarings (Z.to_nat (wf - dWorkFactor d)) n x in
    Some (mkdigest (dModulusID d) (big_bytes x) (dSalt d) wf (dPreHash d) (dPostHashLen d))
  else None.
(** big.Int Exp with positive modulus (square and multiply; the value is x^e mod m) *)
Fixpoint pow_mod_pos (x : N) (e : positive) (m : N) : N :=
  match e with
  | xH => (x mod m)%N
  | xO e => pow_mod_pos ((x * x) mod m) e m
  | xI e => ((x * pow_mod_pos ((x * x) mod m) e m) mod m)%N
  end.
Definition pow_mod (x e m : N) : N := match e with N0 => (1 mod m)%N | Npos e => pow_mod_pos x e m end.
(** makwa.go:271-277 sqrtExp *)
Definition sqrtExp (p w : N) : N := pow_mod (N.shiftr (p + 1) 2) w (p - 1).
(** makwa.go:279-286 crt: h = ((zp - zq) * iq) mod p (Euclidean), z = zq + q*h *)
Definition crt (p q iq zp zq : N) : N :=
  let h := Z.to_N (((Z.of_N zp - Z.of_N zq) * Z.of_N iq) mod Z.of_N p) in
  (zq + q * h)%N.
(** makwa.go:115-134: one candidate *)
Definition try_candidate (n : N) (salt : list N) (v : N) : option (list N) :=
  let buf := mk_pad n v in
  if negb (at_ buf 0 =? 0)%N then None else
  let k := Datatypes.length buf in
  let u := N.to_nat (N.land (at_ buf (k - 1)) 255) in
  if k <? u + 32 then None else
  let password := slice buf (k - u - 1) (k - 1) in
  let x := kdf (salt ++ password ++ [N.of_nat u]) (k - 2 - u) in
  let x := [0%N] ++ x ++ password ++ [N.of_nat u] in
  if list_eq_dec N.eq_dec x buf then Some password else None.
Fixpoint first_some {A B} (f : A -> option B) (l : list A) : option B :=
  match l with [] => None | x :: l => match f x with Some y => Some y | None => first_some f l end end.
(** makwa.go:80-137 Recover (work factor not negative).  [iq] is the result of ModInverse(q, p). *)
Definition Recover (n p q iq : N) (d : digest) : option (list N) :=
  if dPreHash d || (0 <? dPostHashLen d)%Z then None else
  if list_eq_dec N.eq_dec (dModulusID d) (ModulusID n) then
    let y := be_val (dHash d) in
    let w := Z.to_N (dWorkFactor d + 1) in
    let ep := sqrtExp p w in
    let eq := sqrtExp q w in
    let x1p := pow_mod (y mod p) ep p in
    let x1q := pow_mod (y mod q) eq q in
    let x2p := ((p - x1p) mod p)%N in
    let x2q := ((q - x1q) mod q)%N in
    first_some (try_candidate n (dSalt d))
      [crt p q iq x1p x1q; crt p q iq x1p x2q; crt p q iq x2p x1q; crt p q iq x2p x2q]
  else None.
End Params.
