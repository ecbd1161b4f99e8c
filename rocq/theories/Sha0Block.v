(** Sha0Block.v -- GENERATED by tools/gen_sha0.py from /repo/sha0/digest.go:101-374
    (processBlock, unrolled in the source).  One row per round: every three source
    lines  "W_w = ...; X_dst = rotl5(X_p) + f(X_q1,X_q2,X_q3) + X_dst + W_w + sbox[k];
    X_rot = rotl30(X_rot)"  become one row; registers A..E are 0..4.  The generator
    fails if a line has any other shape.  Do not edit. *)
From Coq Require Import List NArith.
From Verif Require Import Base.
Import ListNotations.

Inductive sha0_wexp := Load (off : nat) | Mix (a b c d : nat).
Inductive sha0_fun := Ch | Parity | Maj.
Record sha0_row := row { r_wx : sha0_wexp; r_w : nat; r_dst : nat; r_p : nat; r_f : sha0_fun;
  r_q1 : nat; r_q2 : nat; r_q3 : nat; r_k : nat; r_rot : nat }.

Definition sha0_rows : list sha0_row := [
  row (Load 0) 0 4 0 Ch 1 2 3 0 1 (* 110-112 *);
  row (Load 4) 1 3 4 Ch 0 1 2 0 0 (* 114-116 *);
  row (Load 8) 2 2 3 Ch 4 0 1 0 4 (* 118-120 *);
  row (Load 12) 3 1 2 Ch 3 4 0 0 3 (* 122-124 *);
  row (Load 16) 4 0 1 Ch 2 3 4 0 2 (* 126-128 *);
  row (Load 20) 5 4 0 Ch 1 2 3 0 1 (* 130-132 *);
  row (Load 24) 6 3 4 Ch 0 1 2 0 0 (* 134-136 *);
  row (Load 28) 7 2 3 Ch 4 0 1 0 4 (* 138-140 *);
  row (Load 32) 8 1 2 Ch 3 4 0 0 3 (* 142-144 *);
  row (Load 36) 9 0 1 Ch 2 3 4 0 2 (* 146-148 *);
  row (Load 40) 10 4 0 Ch 1 2 3 0 1 (* 150-152 *);
  row (Load 44) 11 3 4 Ch 0 1 2 0 0 (* 154-156 *);
  row (Load 48) 12 2 3 Ch 4 0 1 0 4 (* 158-160 *);
  row (Load 52) 13 1 2 Ch 3 4 0 0 3 (* 162-164 *);
  row (Load 56) 14 0 1 Ch 2 3 4 0 2 (* 166-168 *);
  row (Load 60) 15 4 0 Ch 1 2 3 0 1 (* 170-172 *);
  row (Mix 13 8 2 0) 0 3 4 Ch 0 1 2 0 0 (* 174-176 *);
  row (Mix 14 9 3 1) 1 2 3 Ch 4 0 1 0 4 (* 177-179 *);
  row (Mix 15 10 4 2) 2 1 2 Ch 3 4 0 0 3 (* 180-182 *);
  row (Mix 0 11 5 3) 3 0 1 Ch 2 3 4 0 2 (* 183-185 *);
  row (Mix 1 12 6 4) 4 4 0 Parity 1 2 3 1 1 (* 186-188 *);
  row (Mix 2 13 7 5) 5 3 4 Parity 0 1 2 1 0 (* 189-191 *);
  row (Mix 3 14 8 6) 6 2 3 Parity 4 0 1 1 4 (* 192-194 *);
  row (Mix 4 15 9 7) 7 1 2 Parity 3 4 0 1 3 (* 195-197 *);
  row (Mix 5 0 10 8) 8 0 1 Parity 2 3 4 1 2 (* 198-200 *);
  row (Mix 6 1 11 9) 9 4 0 Parity 1 2 3 1 1 (* 201-203 *);
  row (Mix 7 2 12 10) 10 3 4 Parity 0 1 2 1 0 (* 204-206 *);
  row (Mix 8 3 13 11) 11 2 3 Parity 4 0 1 1 4 (* 207-209 *);
  row (Mix 9 4 14 12) 12 1 2 Parity 3 4 0 1 3 (* 210-212 *);
  row (Mix 10 5 15 13) 13 0 1 Parity 2 3 4 1 2 (* 213-215 *);
  row (Mix 11 6 0 14) 14 4 0 Parity 1 2 3 1 1 (* 216-218 *);
  row (Mix 12 7 1 15) 15 3 4 Parity 0 1 2 1 0 (* 219-221 *);
  row (Mix 13 8 2 0) 0 2 3 Parity 4 0 1 1 4 (* 222-224 *);
  row (Mix 14 9 3 1) 1 1 2 Parity 3 4 0 1 3 (* 225-227 *);
  row (Mix 15 10 4 2) 2 0 1 Parity 2 3 4 1 2 (* 228-230 *);
  row (Mix 0 11 5 3) 3 4 0 Parity 1 2 3 1 1 (* 231-233 *);
  row (Mix 1 12 6 4) 4 3 4 Parity 0 1 2 1 0 (* 234-236 *);
  row (Mix 2 13 7 5) 5 2 3 Parity 4 0 1 1 4 (* 237-239 *);
  row (Mix 3 14 8 6) 6 1 2 Parity 3 4 0 1 3 (* 240-242 *);
  row (Mix 4 15 9 7) 7 0 1 Parity 2 3 4 1 2 (* 243-245 *);
  row (Mix 5 0 10 8) 8 4 0 Maj 1 2 3 2 1 (* 246-248 *);
  row (Mix 6 1 11 9) 9 3 4 Maj 0 1 2 2 0 (* 249-251 *);
  row (Mix 7 2 12 10) 10 2 3 Maj 4 0 1 2 4 (* 252-254 *);
  row (Mix 8 3 13 11) 11 1 2 Maj 3 4 0 2 3 (* 255-257 *);
  row (Mix 9 4 14 12) 12 0 1 Maj 2 3 4 2 2 (* 258-260 *);
  row (Mix 10 5 15 13) 13 4 0 Maj 1 2 3 2 1 (* 261-263 *);
  row (Mix 11 6 0 14) 14 3 4 Maj 0 1 2 2 0 (* 264-266 *);
  row (Mix 12 7 1 15) 15 2 3 Maj 4 0 1 2 4 (* 267-269 *);
  row (Mix 13 8 2 0) 0 1 2 Maj 3 4 0 2 3 (* 271-273 *);
  row (Mix 14 9 3 1) 1 0 1 Maj 2 3 4 2 2 (* 274-276 *);
  row (Mix 15 10 4 2) 2 4 0 Maj 1 2 3 2 1 (* 277-279 *);
  row (Mix 0 11 5 3) 3 3 4 Maj 0 1 2 2 0 (* 280-282 *);
  row (Mix 1 12 6 4) 4 2 3 Maj 4 0 1 2 4 (* 283-285 *);
  row (Mix 2 13 7 5) 5 1 2 Maj 3 4 0 2 3 (* 286-288 *);
  row (Mix 3 14 8 6) 6 0 1 Maj 2 3 4 2 2 (* 289-291 *);
  row (Mix 4 15 9 7) 7 4 0 Maj 1 2 3 2 1 (* 292-294 *);
  row (Mix 5 0 10 8) 8 3 4 Maj 0 1 2 2 0 (* 295-297 *);
  row (Mix 6 1 11 9) 9 2 3 Maj 4 0 1 2 4 (* 298-300 *);
  row (Mix 7 2 12 10) 10 1 2 Maj 3 4 0 2 3 (* 301-303 *);
  row (Mix 8 3 13 11) 11 0 1 Maj 2 3 4 2 2 (* 304-306 *);
  row (Mix 9 4 14 12) 12 4 0 Parity 1 2 3 3 1 (* 307-309 *);
  row (Mix 10 5 15 13) 13 3 4 Parity 0 1 2 3 0 (* 310-312 *);
  row (Mix 11 6 0 14) 14 2 3 Parity 4 0 1 3 4 (* 313-315 *);
  row (Mix 12 7 1 15) 15 1 2 Parity 3 4 0 3 3 (* 316-318 *);
  row (Mix 13 8 2 0) 0 0 1 Parity 2 3 4 3 2 (* 320-322 *);
  row (Mix 14 9 3 1) 1 4 0 Parity 1 2 3 3 1 (* 323-325 *);
  row (Mix 15 10 4 2) 2 3 4 Parity 0 1 2 3 0 (* 326-328 *);
  row (Mix 0 11 5 3) 3 2 3 Parity 4 0 1 3 4 (* 329-331 *);
  row (Mix 1 12 6 4) 4 1 2 Parity 3 4 0 3 3 (* 332-334 *);
  row (Mix 2 13 7 5) 5 0 1 Parity 2 3 4 3 2 (* 335-337 *);
  row (Mix 3 14 8 6) 6 4 0 Parity 1 2 3 3 1 (* 338-340 *);
  row (Mix 4 15 9 7) 7 3 4 Parity 0 1 2 3 0 (* 341-343 *);
  row (Mix 5 0 10 8) 8 2 3 Parity 4 0 1 3 4 (* 344-346 *);
  row (Mix 6 1 11 9) 9 1 2 Parity 3 4 0 3 3 (* 347-349 *);
  row (Mix 7 2 12 10) 10 0 1 Parity 2 3 4 3 2 (* 350-352 *);
  row (Mix 8 3 13 11) 11 4 0 Parity 1 2 3 3 1 (* 353-355 *);
  row (Mix 9 4 14 12) 12 3 4 Parity 0 1 2 3 0 (* 356-358 *);
  row (Mix 10 5 15 13) 13 2 3 Parity 4 0 1 3 4 (* 359-361 *);
  row (Mix 11 6 0 14) 14 1 2 Parity 3 4 0 3 3 (* 362-364 *);
  row (Mix 12 7 1 15) 15 0 1 Parity 2 3 4 3 2 (* 365-367 *)].
