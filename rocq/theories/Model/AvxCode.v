(** The straight-line vector code of AVX_Implementation_KEM/polymul, statement by statement (generated from the C text;
    calls, loops and branches are in Model/AvxMul.v).  Within each section the names of the C variables stand for their
    numbers; [globals] holds the constants set by load_values (SABER_indcpa.c:40-71). *)
From Coq Require Import ZArith List.
From Verif Require Import Model.Vec.
Import ListNotations.
Local Open Scope Z_scope.

(** polymul/scm_avx.c:6-8. *)
Definition mul_add (a b c : vexp) : vexp := Bin2 Add (Bin2 Mul a b) c.

(** Order of the constants in [globals]. *)
Local Notation inv3_avx := 0.
Local Notation inv9_avx := 1.
Local Notation inv15_avx := 2.
Local Notation int45_avx := 3.
Local Notation int30_avx := 4.
Local Notation int0_avx := 5.

Section transpose_n1.
Local Notation M := 0.
Local Notation r0 := 0. Local Notation r1 := 1. Local Notation r2 := 2. Local Notation r3 := 3. Local Notation r4 := 4. Local Notation r5 := 5. Local Notation r6 := 6. Local Notation r7 := 7. Local Notation temp := 8. Local Notation temp0 := 9. Local Notation temp1 := 10. Local Notation temp2 := 11. Local Notation r8 := 12. Local Notation r9 := 13. Local Notation r10 := 14. Local Notation r11 := 15.
(** polymul/matrix.c:14-125 (statements in lines 21-124). *)
Definition transpose_n1_code : list vstmt := [
    SetR r0 (Bin2 (UnpackLo 1) (El M 0) (El M 1));
    SetR r1 (Bin2 (UnpackLo 1) (El M 2) (El M 3));
    SetR r2 (Bin2 (UnpackLo 1) (El M 4) (El M 5));
    SetR r3 (Bin2 (UnpackLo 1) (El M 6) (El M 7));
    SetR r4 (Bin2 (UnpackLo 1) (El M 8) (El M 9));
    SetR r5 (Bin2 (UnpackLo 1) (El M 10) (El M 11));
    SetR r6 (Bin2 (UnpackLo 1) (El M 12) (El M 13));
    SetR r7 (Bin2 (UnpackLo 1) (El M 14) (El M 15));
    SetR temp (Bin2 (UnpackLo 2) (Reg r0) (Reg r1));
    SetR temp0 (Bin2 (UnpackLo 2) (Reg r2) (Reg r3));
    SetR temp1 (Bin2 (UnpackLo 2) (Reg r4) (Reg r5));
    SetR temp2 (Bin2 (UnpackLo 2) (Reg r6) (Reg r7));
    SetR r8 (Bin2 (UnpackHi 2) (Reg r0) (Reg r1));
    SetR r9 (Bin2 (UnpackHi 2) (Reg r2) (Reg r3));
    SetR r10 (Bin2 (UnpackHi 2) (Reg r4) (Reg r5));
    SetR r11 (Bin2 (UnpackHi 2) (Reg r6) (Reg r7));
    SetR r0 (Bin2 (UnpackLo 4) (Reg temp) (Reg temp0));
    SetR r2 (Bin2 (UnpackHi 4) (Reg temp) (Reg temp0));
    SetR r1 (Bin2 (UnpackLo 4) (Reg temp1) (Reg temp2));
    SetR r3 (Bin2 (UnpackHi 4) (Reg temp1) (Reg temp2));
    SetR temp (Bin2 (UnpackHi 1) (El M 0) (El M 1));
    SetR temp0 (Bin2 (UnpackHi 1) (El M 2) (El M 3));
    SetR temp1 (Bin2 (UnpackHi 1) (El M 4) (El M 5));
    SetR temp2 (Bin2 (UnpackHi 1) (El M 6) (El M 7));
    SetR r4 (Bin2 (UnpackHi 1) (El M 8) (El M 9));
    SetE M 0 (Bin2 (Perm 0x20) (Reg r0) (Reg r1));
    SetE M 8 (Bin2 (Perm 0x31) (Reg r0) (Reg r1));
    SetE M 1 (Bin2 (Perm 0x20) (Reg r2) (Reg r3));
    SetE M 9 (Bin2 (Perm 0x31) (Reg r2) (Reg r3));
    SetR r5 (Bin2 (UnpackHi 1) (El M 10) (El M 11));
    SetR r6 (Bin2 (UnpackHi 1) (El M 12) (El M 13));
    SetR r7 (Bin2 (UnpackHi 1) (El M 14) (El M 15));
    SetR r0 (Bin2 (UnpackLo 4) (Reg r8) (Reg r9));
    SetR r1 (Bin2 (UnpackLo 4) (Reg r10) (Reg r11));
    SetR r2 (Bin2 (UnpackHi 4) (Reg r8) (Reg r9));
    SetR r3 (Bin2 (UnpackHi 4) (Reg r10) (Reg r11));
    SetE M 3 (Bin2 (Perm 0x20) (Reg r2) (Reg r3));
    SetE M 11 (Bin2 (Perm 0x31) (Reg r2) (Reg r3));
    SetE M 2 (Bin2 (Perm 0x20) (Reg r0) (Reg r1));
    SetE M 10 (Bin2 (Perm 0x31) (Reg r0) (Reg r1));
    SetR r0 (Bin2 (UnpackLo 2) (Reg temp) (Reg temp0));
    SetR r1 (Bin2 (UnpackLo 2) (Reg temp1) (Reg temp2));
    SetR r2 (Bin2 (UnpackLo 2) (Reg r4) (Reg r5));
    SetR r3 (Bin2 (UnpackLo 2) (Reg r6) (Reg r7));
    SetR r8 (Bin2 (UnpackLo 4) (Reg r0) (Reg r1));
    SetR r10 (Bin2 (UnpackHi 4) (Reg r0) (Reg r1));
    SetR r9 (Bin2 (UnpackLo 4) (Reg r2) (Reg r3));
    SetR r11 (Bin2 (UnpackHi 4) (Reg r2) (Reg r3));
    SetE M 4 (Bin2 (Perm 0x20) (Reg r8) (Reg r9));
    SetE M 12 (Bin2 (Perm 0x31) (Reg r8) (Reg r9));
    SetE M 5 (Bin2 (Perm 0x20) (Reg r10) (Reg r11));
    SetE M 13 (Bin2 (Perm 0x31) (Reg r10) (Reg r11));
    SetR r0 (Bin2 (UnpackHi 2) (Reg temp) (Reg temp0));
    SetR r1 (Bin2 (UnpackHi 2) (Reg temp1) (Reg temp2));
    SetR r2 (Bin2 (UnpackHi 2) (Reg r4) (Reg r5));
    SetR r3 (Bin2 (UnpackHi 2) (Reg r6) (Reg r7));
    SetR r4 (Bin2 (UnpackLo 4) (Reg r0) (Reg r1));
    SetR r6 (Bin2 (UnpackHi 4) (Reg r0) (Reg r1));
    SetR r5 (Bin2 (UnpackLo 4) (Reg r2) (Reg r3));
    SetR r7 (Bin2 (UnpackHi 4) (Reg r2) (Reg r3));
    SetE M 6 (Bin2 (Perm 0x20) (Reg r4) (Reg r5));
    SetE M 14 (Bin2 (Perm 0x31) (Reg r4) (Reg r5));
    SetE M 7 (Bin2 (Perm 0x20) (Reg r6) (Reg r7));
    SetE M 15 (Bin2 (Perm 0x31) (Reg r6) (Reg r7))].
End transpose_n1.

Section schoolbook_avx_new3_acc.
Local Notation a := 0. Local Notation b := 1. Local Notation c_avx := 2.
Local Notation a0 := 0. Local Notation a1 := 1. Local Notation a2 := 2. Local Notation a3 := 3. Local Notation a4 := 4. Local Notation a5 := 5. Local Notation a6 := 6. Local Notation a7 := 7. Local Notation b0 := 8. Local Notation b1 := 9. Local Notation b2 := 10. Local Notation b3 := 11. Local Notation b4 := 12. Local Notation b5 := 13. Local Notation b6 := 14. Local Notation b7 := 15. Local Notation temp := 16.
(** polymul/scm_avx.c:19-406. *)
Definition schoolbook_avx_new3_acc_code : list vstmt := [
    SetR a0 (El a 0);
    SetR a1 (El a 1);
    SetR a2 (El a 2);
    SetR a3 (El a 3);
    SetR a4 (El a 4);
    SetR a5 (El a 5);
    SetR a6 (El a 6);
    SetR a7 (El a 7);
    SetR b0 (El b 0);
    SetR b1 (El b 1);
    SetR b2 (El b 2);
    SetR b3 (El b 3);
    SetR b4 (El b 4);
    SetR b5 (El b 5);
    SetR b6 (El b 6);
    SetR b7 (El b 7);
    SetE c_avx 0 (mul_add (Reg a0) (Reg b0) (El c_avx 0));
    SetR temp (Bin2 Mul (Reg a0) (Reg b1));
    SetR temp (mul_add (Reg a1) (Reg b0) (Reg temp));
    SetE c_avx 1 (Bin2 Add (Reg temp) (El c_avx 1));
    SetR temp (Bin2 Mul (Reg a0) (Reg b2));
    SetR temp (mul_add (Reg a1) (Reg b1) (Reg temp));
    SetR temp (mul_add (Reg a2) (Reg b0) (Reg temp));
    SetE c_avx 2 (Bin2 Add (Reg temp) (El c_avx 2));
    SetR temp (Bin2 Mul (Reg a0) (Reg b3));
    SetR temp (mul_add (Reg a1) (Reg b2) (Reg temp));
    SetR temp (mul_add (Reg a2) (Reg b1) (Reg temp));
    SetR temp (mul_add (Reg a3) (Reg b0) (Reg temp));
    SetE c_avx 3 (Bin2 Add (Reg temp) (El c_avx 3));
    SetR temp (Bin2 Mul (Reg a0) (Reg b4));
    SetR temp (mul_add (Reg a1) (Reg b3) (Reg temp));
    SetR temp (mul_add (Reg a3) (Reg b1) (Reg temp));
    SetR temp (mul_add (Reg a4) (Reg b0) (Reg temp));
    SetR temp (mul_add (Reg a2) (Reg b2) (Reg temp));
    SetE c_avx 4 (Bin2 Add (Reg temp) (El c_avx 4));
    SetR temp (Bin2 Mul (Reg a0) (Reg b5));
    SetR temp (mul_add (Reg a1) (Reg b4) (Reg temp));
    SetR temp (mul_add (Reg a2) (Reg b3) (Reg temp));
    SetR temp (mul_add (Reg a3) (Reg b2) (Reg temp));
    SetR temp (mul_add (Reg a4) (Reg b1) (Reg temp));
    SetR temp (mul_add (Reg a5) (Reg b0) (Reg temp));
    SetE c_avx 5 (Bin2 Add (Reg temp) (El c_avx 5));
    SetR temp (Bin2 Mul (Reg a0) (Reg b6));
    SetR temp (mul_add (Reg a1) (Reg b5) (Reg temp));
    SetR temp (mul_add (Reg a5) (Reg b1) (Reg temp));
    SetR temp (mul_add (Reg a6) (Reg b0) (Reg temp));
    SetR temp (mul_add (Reg a2) (Reg b4) (Reg temp));
    SetR temp (mul_add (Reg a3) (Reg b3) (Reg temp));
    SetR temp (mul_add (Reg a4) (Reg b2) (Reg temp));
    SetE c_avx 6 (Bin2 Add (Reg temp) (El c_avx 6));
    SetR temp (Bin2 Mul (Reg a0) (Reg b7));
    SetR temp (mul_add (Reg a1) (Reg b6) (Reg temp));
    SetR temp (mul_add (Reg a6) (Reg b1) (Reg temp));
    SetR temp (mul_add (Reg a7) (Reg b0) (Reg temp));
    SetR temp (mul_add (Reg a2) (Reg b5) (Reg temp));
    SetR temp (mul_add (Reg a3) (Reg b4) (Reg temp));
    SetR temp (mul_add (Reg a4) (Reg b3) (Reg temp));
    SetR temp (mul_add (Reg a5) (Reg b2) (Reg temp));
    SetE c_avx 7 (Bin2 Add (Reg temp) (El c_avx 7));
    SetR temp (Bin2 Mul (Reg a0) (El b 8));
    SetR temp (mul_add (Reg a1) (Reg b7) (Reg temp));
    SetR temp (mul_add (Reg a7) (Reg b1) (Reg temp));
    SetR temp (mul_add (El a 8) (Reg b0) (Reg temp));
    SetR temp (mul_add (Reg a2) (Reg b6) (Reg temp));
    SetR temp (mul_add (Reg a3) (Reg b5) (Reg temp));
    SetR temp (mul_add (Reg a4) (Reg b4) (Reg temp));
    SetR temp (mul_add (Reg a5) (Reg b3) (Reg temp));
    SetR temp (mul_add (Reg a6) (Reg b2) (Reg temp));
    SetE c_avx 8 (Bin2 Add (Reg temp) (El c_avx 8));
    SetR temp (Bin2 Mul (Reg a0) (El b 9));
    SetR temp (mul_add (Reg a1) (El b 8) (Reg temp));
    SetR temp (mul_add (El a 8) (Reg b1) (Reg temp));
    SetR temp (mul_add (El a 9) (Reg b0) (Reg temp));
    SetR temp (mul_add (Reg a2) (Reg b7) (Reg temp));
    SetR temp (mul_add (Reg a3) (Reg b6) (Reg temp));
    SetR temp (mul_add (Reg a4) (Reg b5) (Reg temp));
    SetR temp (mul_add (Reg a5) (Reg b4) (Reg temp));
    SetR temp (mul_add (Reg a6) (Reg b3) (Reg temp));
    SetR temp (mul_add (Reg a7) (Reg b2) (Reg temp));
    SetE c_avx 9 (Bin2 Add (Reg temp) (El c_avx 9));
    SetR temp (Bin2 Mul (Reg a0) (El b 10));
    SetR temp (mul_add (Reg a1) (El b 9) (Reg temp));
    SetR temp (mul_add (El a 9) (Reg b1) (Reg temp));
    SetR temp (mul_add (El a 10) (Reg b0) (Reg temp));
    SetR temp (mul_add (Reg a2) (El b 8) (Reg temp));
    SetR temp (mul_add (Reg a3) (Reg b7) (Reg temp));
    SetR temp (mul_add (Reg a4) (Reg b6) (Reg temp));
    SetR temp (mul_add (Reg a5) (Reg b5) (Reg temp));
    SetR temp (mul_add (Reg a6) (Reg b4) (Reg temp));
    SetR temp (mul_add (Reg a7) (Reg b3) (Reg temp));
    SetR temp (mul_add (El a 8) (Reg b2) (Reg temp));
    SetE c_avx 10 (Bin2 Add (Reg temp) (El c_avx 10));
    SetR temp (Bin2 Mul (Reg a0) (El b 11));
    SetR temp (mul_add (Reg a1) (El b 10) (Reg temp));
    SetR temp (mul_add (El a 10) (Reg b1) (Reg temp));
    SetR temp (mul_add (El a 11) (Reg b0) (Reg temp));
    SetR temp (mul_add (Reg a2) (El b 9) (Reg temp));
    SetR temp (mul_add (Reg a3) (El b 8) (Reg temp));
    SetR temp (mul_add (Reg a4) (Reg b7) (Reg temp));
    SetR temp (mul_add (Reg a5) (Reg b6) (Reg temp));
    SetR temp (mul_add (Reg a6) (Reg b5) (Reg temp));
    SetR temp (mul_add (Reg a7) (Reg b4) (Reg temp));
    SetR temp (mul_add (El a 8) (Reg b3) (Reg temp));
    SetR temp (mul_add (El a 9) (Reg b2) (Reg temp));
    SetE c_avx 11 (Bin2 Add (Reg temp) (El c_avx 11));
    SetR temp (Bin2 Mul (Reg a0) (El b 12));
    SetR temp (mul_add (Reg a1) (El b 11) (Reg temp));
    SetR temp (mul_add (El a 11) (Reg b1) (Reg temp));
    SetR temp (mul_add (El a 12) (Reg b0) (Reg temp));
    SetR temp (mul_add (Reg a2) (El b 10) (Reg temp));
    SetR temp (mul_add (Reg a3) (El b 9) (Reg temp));
    SetR temp (mul_add (Reg a4) (El b 8) (Reg temp));
    SetR temp (mul_add (Reg a5) (Reg b7) (Reg temp));
    SetR temp (mul_add (Reg a6) (Reg b6) (Reg temp));
    SetR temp (mul_add (Reg a7) (Reg b5) (Reg temp));
    SetR temp (mul_add (El a 8) (Reg b4) (Reg temp));
    SetR temp (mul_add (El a 9) (Reg b3) (Reg temp));
    SetR temp (mul_add (El a 10) (Reg b2) (Reg temp));
    SetE c_avx 12 (Bin2 Add (Reg temp) (El c_avx 12));
    SetR temp (Bin2 Mul (Reg a0) (El b 13));
    SetR temp (mul_add (Reg a1) (El b 12) (Reg temp));
    SetR temp (mul_add (El a 12) (Reg b1) (Reg temp));
    SetR temp (mul_add (El a 13) (Reg b0) (Reg temp));
    SetR temp (mul_add (Reg a2) (El b 11) (Reg temp));
    SetR temp (mul_add (Reg a3) (El b 10) (Reg temp));
    SetR temp (mul_add (Reg a4) (El b 9) (Reg temp));
    SetR temp (mul_add (Reg a5) (El b 8) (Reg temp));
    SetR temp (mul_add (Reg a6) (Reg b7) (Reg temp));
    SetR temp (mul_add (Reg a7) (Reg b6) (Reg temp));
    SetR temp (mul_add (El a 8) (Reg b5) (Reg temp));
    SetR temp (mul_add (El a 9) (Reg b4) (Reg temp));
    SetR temp (mul_add (El a 10) (Reg b3) (Reg temp));
    SetR temp (mul_add (El a 11) (Reg b2) (Reg temp));
    SetE c_avx 13 (Bin2 Add (Reg temp) (El c_avx 13));
    SetR temp (Bin2 Mul (Reg a0) (El b 14));
    SetR temp (mul_add (Reg a1) (El b 13) (Reg temp));
    SetR temp (mul_add (El a 13) (Reg b1) (Reg temp));
    SetR temp (mul_add (El a 14) (Reg b0) (Reg temp));
    SetR temp (mul_add (Reg a2) (El b 12) (Reg temp));
    SetR temp (mul_add (Reg a3) (El b 11) (Reg temp));
    SetR temp (mul_add (Reg a4) (El b 10) (Reg temp));
    SetR temp (mul_add (Reg a5) (El b 9) (Reg temp));
    SetR temp (mul_add (Reg a6) (El b 8) (Reg temp));
    SetR temp (mul_add (Reg a7) (Reg b7) (Reg temp));
    SetR temp (mul_add (El a 8) (Reg b6) (Reg temp));
    SetR temp (mul_add (El a 9) (Reg b5) (Reg temp));
    SetR temp (mul_add (El a 10) (Reg b4) (Reg temp));
    SetR temp (mul_add (El a 11) (Reg b3) (Reg temp));
    SetR temp (mul_add (El a 12) (Reg b2) (Reg temp));
    SetE c_avx 14 (Bin2 Add (Reg temp) (El c_avx 14));
    SetR temp (Bin2 Mul (Reg a0) (El b 15));
    SetR temp (mul_add (Reg a1) (El b 14) (Reg temp));
    SetR temp (mul_add (El a 14) (Reg b1) (Reg temp));
    SetR temp (mul_add (El a 15) (Reg b0) (Reg temp));
    SetR temp (mul_add (Reg a2) (El b 13) (Reg temp));
    SetR temp (mul_add (Reg a3) (El b 12) (Reg temp));
    SetR temp (mul_add (Reg a4) (El b 11) (Reg temp));
    SetR temp (mul_add (Reg a5) (El b 10) (Reg temp));
    SetR temp (mul_add (Reg a6) (El b 9) (Reg temp));
    SetR temp (mul_add (Reg a7) (El b 8) (Reg temp));
    SetR temp (mul_add (El a 8) (Reg b7) (Reg temp));
    SetR temp (mul_add (El a 9) (Reg b6) (Reg temp));
    SetR temp (mul_add (El a 10) (Reg b5) (Reg temp));
    SetR temp (mul_add (El a 11) (Reg b4) (Reg temp));
    SetR temp (mul_add (El a 12) (Reg b3) (Reg temp));
    SetR temp (mul_add (El a 13) (Reg b2) (Reg temp));
    SetE c_avx 15 (Bin2 Add (Reg temp) (El c_avx 15));
    SetR a0 (El a 14);
    SetR a1 (El a 15);
    SetR a2 (El a 13);
    SetR a3 (El a 12);
    SetR a4 (El a 11);
    SetR a5 (El a 10);
    SetR a6 (El a 9);
    SetR a7 (El a 8);
    SetR b0 (El b 14);
    SetR b1 (El b 15);
    SetR b2 (El b 13);
    SetR b3 (El b 12);
    SetR b4 (El b 11);
    SetR b5 (El b 10);
    SetR b6 (El b 9);
    SetR b7 (El b 8);
    SetR temp (Bin2 Mul (El a 1) (Reg b1));
    SetR temp (mul_add (El a 2) (Reg b0) (Reg temp));
    SetR temp (mul_add (El a 3) (Reg b2) (Reg temp));
    SetR temp (mul_add (El a 4) (Reg b3) (Reg temp));
    SetR temp (mul_add (El a 5) (Reg b4) (Reg temp));
    SetR temp (mul_add (El a 6) (Reg b5) (Reg temp));
    SetR temp (mul_add (El a 7) (Reg b6) (Reg temp));
    SetR temp (mul_add (Reg a7) (Reg b7) (Reg temp));
    SetR temp (mul_add (Reg a6) (El b 7) (Reg temp));
    SetR temp (mul_add (Reg a5) (El b 6) (Reg temp));
    SetR temp (mul_add (Reg a4) (El b 5) (Reg temp));
    SetR temp (mul_add (Reg a3) (El b 4) (Reg temp));
    SetR temp (mul_add (Reg a2) (El b 3) (Reg temp));
    SetR temp (mul_add (Reg a0) (El b 2) (Reg temp));
    SetR temp (mul_add (Reg a1) (El b 1) (Reg temp));
    SetE c_avx 16 (Bin2 Add (Reg temp) (El c_avx 16));
    SetR temp (Bin2 Mul (El a 2) (Reg b1));
    SetR temp (mul_add (El a 3) (Reg b0) (Reg temp));
    SetR temp (mul_add (El a 4) (Reg b2) (Reg temp));
    SetR temp (mul_add (El a 5) (Reg b3) (Reg temp));
    SetR temp (mul_add (El a 6) (Reg b4) (Reg temp));
    SetR temp (mul_add (El a 7) (Reg b5) (Reg temp));
    SetR temp (mul_add (Reg a7) (Reg b6) (Reg temp));
    SetR temp (mul_add (Reg a6) (Reg b7) (Reg temp));
    SetR temp (mul_add (Reg a5) (El b 7) (Reg temp));
    SetR temp (mul_add (Reg a4) (El b 6) (Reg temp));
    SetR temp (mul_add (Reg a3) (El b 5) (Reg temp));
    SetR temp (mul_add (Reg a2) (El b 4) (Reg temp));
    SetR temp (mul_add (Reg a0) (El b 3) (Reg temp));
    SetR temp (mul_add (Reg a1) (El b 2) (Reg temp));
    SetE c_avx 17 (Bin2 Add (Reg temp) (El c_avx 17));
    SetR temp (Bin2 Mul (El a 3) (Reg b1));
    SetR temp (mul_add (El a 4) (Reg b0) (Reg temp));
    SetR temp (mul_add (El a 5) (Reg b2) (Reg temp));
    SetR temp (mul_add (El a 6) (Reg b3) (Reg temp));
    SetR temp (mul_add (El a 7) (Reg b4) (Reg temp));
    SetR temp (mul_add (Reg a7) (Reg b5) (Reg temp));
    SetR temp (mul_add (Reg a6) (Reg b6) (Reg temp));
    SetR temp (mul_add (Reg a5) (Reg b7) (Reg temp));
    SetR temp (mul_add (Reg a4) (El b 7) (Reg temp));
    SetR temp (mul_add (Reg a3) (El b 6) (Reg temp));
    SetR temp (mul_add (Reg a2) (El b 5) (Reg temp));
    SetR temp (mul_add (Reg a0) (El b 4) (Reg temp));
    SetR temp (mul_add (Reg a1) (El b 3) (Reg temp));
    SetE c_avx 18 (Bin2 Add (Reg temp) (El c_avx 18));
    SetR temp (Bin2 Mul (El a 4) (Reg b1));
    SetR temp (mul_add (El a 5) (Reg b0) (Reg temp));
    SetR temp (mul_add (El a 6) (Reg b2) (Reg temp));
    SetR temp (mul_add (El a 7) (Reg b3) (Reg temp));
    SetR temp (mul_add (Reg a7) (Reg b4) (Reg temp));
    SetR temp (mul_add (Reg a6) (Reg b5) (Reg temp));
    SetR temp (mul_add (Reg a5) (Reg b6) (Reg temp));
    SetR temp (mul_add (Reg a4) (Reg b7) (Reg temp));
    SetR temp (mul_add (Reg a3) (El b 7) (Reg temp));
    SetR temp (mul_add (Reg a2) (El b 6) (Reg temp));
    SetR temp (mul_add (Reg a0) (El b 5) (Reg temp));
    SetR temp (mul_add (Reg a1) (El b 4) (Reg temp));
    SetE c_avx 19 (Bin2 Add (Reg temp) (El c_avx 19));
    SetR temp (Bin2 Mul (El a 5) (Reg b1));
    SetR temp (mul_add (El a 6) (Reg b0) (Reg temp));
    SetR temp (mul_add (El a 7) (Reg b2) (Reg temp));
    SetR temp (mul_add (Reg a7) (Reg b3) (Reg temp));
    SetR temp (mul_add (Reg a6) (Reg b4) (Reg temp));
    SetR temp (mul_add (Reg a5) (Reg b5) (Reg temp));
    SetR temp (mul_add (Reg a4) (Reg b6) (Reg temp));
    SetR temp (mul_add (Reg a3) (Reg b7) (Reg temp));
    SetR temp (mul_add (Reg a2) (El b 7) (Reg temp));
    SetR temp (mul_add (Reg a0) (El b 6) (Reg temp));
    SetR temp (mul_add (Reg a1) (El b 5) (Reg temp));
    SetE c_avx 20 (Bin2 Add (Reg temp) (El c_avx 20));
    SetR temp (Bin2 Mul (El a 6) (Reg b1));
    SetR temp (mul_add (El a 7) (Reg b0) (Reg temp));
    SetR temp (mul_add (Reg a7) (Reg b2) (Reg temp));
    SetR temp (mul_add (Reg a6) (Reg b3) (Reg temp));
    SetR temp (mul_add (Reg a5) (Reg b4) (Reg temp));
    SetR temp (mul_add (Reg a4) (Reg b5) (Reg temp));
    SetR temp (mul_add (Reg a3) (Reg b6) (Reg temp));
    SetR temp (mul_add (Reg a2) (Reg b7) (Reg temp));
    SetR temp (mul_add (Reg a0) (El b 7) (Reg temp));
    SetR temp (mul_add (Reg a1) (El b 6) (Reg temp));
    SetE c_avx 21 (Bin2 Add (Reg temp) (El c_avx 21));
    SetR temp (Bin2 Mul (El a 7) (Reg b1));
    SetR temp (mul_add (Reg a7) (Reg b0) (Reg temp));
    SetR temp (mul_add (Reg a6) (Reg b2) (Reg temp));
    SetR temp (mul_add (Reg a5) (Reg b3) (Reg temp));
    SetR temp (mul_add (Reg a4) (Reg b4) (Reg temp));
    SetR temp (mul_add (Reg a3) (Reg b5) (Reg temp));
    SetR temp (mul_add (Reg a2) (Reg b6) (Reg temp));
    SetR temp (mul_add (Reg a0) (Reg b7) (Reg temp));
    SetR temp (mul_add (Reg a1) (El b 7) (Reg temp));
    SetE c_avx 22 (Bin2 Add (Reg temp) (El c_avx 22));
    SetR temp (Bin2 Mul (Reg a7) (Reg b1));
    SetR temp (mul_add (Reg a6) (Reg b0) (Reg temp));
    SetR temp (mul_add (Reg a5) (Reg b2) (Reg temp));
    SetR temp (mul_add (Reg a4) (Reg b3) (Reg temp));
    SetR temp (mul_add (Reg a3) (Reg b4) (Reg temp));
    SetR temp (mul_add (Reg a2) (Reg b5) (Reg temp));
    SetR temp (mul_add (Reg a0) (Reg b6) (Reg temp));
    SetR temp (mul_add (Reg a1) (Reg b7) (Reg temp));
    SetE c_avx 23 (Bin2 Add (Reg temp) (El c_avx 23));
    SetR temp (Bin2 Mul (Reg a6) (Reg b1));
    SetR temp (mul_add (Reg a5) (Reg b0) (Reg temp));
    SetR temp (mul_add (Reg a4) (Reg b2) (Reg temp));
    SetR temp (mul_add (Reg a3) (Reg b3) (Reg temp));
    SetR temp (mul_add (Reg a2) (Reg b4) (Reg temp));
    SetR temp (mul_add (Reg a0) (Reg b5) (Reg temp));
    SetR temp (mul_add (Reg a1) (Reg b6) (Reg temp));
    SetE c_avx 24 (Bin2 Add (Reg temp) (El c_avx 24));
    SetR temp (Bin2 Mul (Reg a5) (Reg b1));
    SetR temp (mul_add (Reg a4) (Reg b0) (Reg temp));
    SetR temp (mul_add (Reg a3) (Reg b2) (Reg temp));
    SetR temp (mul_add (Reg a2) (Reg b3) (Reg temp));
    SetR temp (mul_add (Reg a0) (Reg b4) (Reg temp));
    SetR temp (mul_add (Reg a1) (Reg b5) (Reg temp));
    SetE c_avx 25 (Bin2 Add (Reg temp) (El c_avx 25));
    SetR temp (Bin2 Mul (Reg a4) (Reg b1));
    SetR temp (mul_add (Reg a3) (Reg b0) (Reg temp));
    SetR temp (mul_add (Reg a2) (Reg b2) (Reg temp));
    SetR temp (mul_add (Reg a0) (Reg b3) (Reg temp));
    SetR temp (mul_add (Reg a1) (Reg b4) (Reg temp));
    SetE c_avx 26 (Bin2 Add (Reg temp) (El c_avx 26));
    SetR temp (Bin2 Mul (Reg a3) (Reg b1));
    SetR temp (mul_add (Reg a2) (Reg b0) (Reg temp));
    SetR temp (mul_add (Reg a0) (Reg b2) (Reg temp));
    SetR temp (mul_add (Reg a1) (Reg b3) (Reg temp));
    SetE c_avx 27 (Bin2 Add (Reg temp) (El c_avx 27));
    SetR temp (Bin2 Mul (Reg a2) (Reg b1));
    SetR temp (mul_add (Reg a0) (Reg b0) (Reg temp));
    SetR temp (mul_add (Reg a1) (Reg b2) (Reg temp));
    SetE c_avx 28 (Bin2 Add (Reg temp) (El c_avx 28));
    SetR temp (Bin2 Mul (Reg a0) (Reg b1));
    SetR temp (mul_add (Reg a1) (Reg b0) (Reg temp));
    SetE c_avx 29 (Bin2 Add (Reg temp) (El c_avx 29));
    SetE c_avx 30 (mul_add (Reg a1) (Reg b1) (El c_avx 30));
    SetE c_avx 31 Zero].
End schoolbook_avx_new3_acc.

Section schoolbook_avx_new2.
Local Notation a := 0. Local Notation b := 1. Local Notation c_avx := 2.
Local Notation a0 := 0. Local Notation a1 := 1. Local Notation a2 := 2. Local Notation a3 := 3. Local Notation a4 := 4. Local Notation a5 := 5. Local Notation a6 := 6. Local Notation a7 := 7. Local Notation b0 := 8. Local Notation b1 := 9. Local Notation b2 := 10. Local Notation b3 := 11. Local Notation b4 := 12. Local Notation b5 := 13. Local Notation b6 := 14. Local Notation b7 := 15. Local Notation temp := 16.
(** polymul/scm_avx.c:421-750. *)
Definition schoolbook_avx_new2_code : list vstmt := [
    SetR a0 (El a 0);
    SetR a1 (El a 1);
    SetR a2 (El a 2);
    SetR a3 (El a 3);
    SetR a4 (El a 4);
    SetR a5 (El a 5);
    SetR a6 (El a 6);
    SetR a7 (El a 7);
    SetR b0 (El b 0);
    SetR b1 (El b 1);
    SetR b2 (El b 2);
    SetR b3 (El b 3);
    SetR b4 (El b 4);
    SetR b5 (El b 5);
    SetR b6 (El b 6);
    SetR b7 (El b 7);
    SetE c_avx 0 (Bin2 Mul (Reg a0) (Reg b0));
    SetR temp (Bin2 Mul (Reg a0) (Reg b1));
    SetE c_avx 1 (mul_add (Reg a1) (Reg b0) (Reg temp));
    SetR temp (Bin2 Mul (Reg a0) (Reg b2));
    SetR temp (mul_add (Reg a1) (Reg b1) (Reg temp));
    SetE c_avx 2 (mul_add (Reg a2) (Reg b0) (Reg temp));
    SetR temp (Bin2 Mul (Reg a0) (Reg b3));
    SetR temp (mul_add (Reg a1) (Reg b2) (Reg temp));
    SetR temp (mul_add (Reg a2) (Reg b1) (Reg temp));
    SetE c_avx 3 (mul_add (Reg a3) (Reg b0) (Reg temp));
    SetR temp (Bin2 Mul (Reg a0) (Reg b4));
    SetR temp (mul_add (Reg a1) (Reg b3) (Reg temp));
    SetR temp (mul_add (Reg a3) (Reg b1) (Reg temp));
    SetR temp (mul_add (Reg a4) (Reg b0) (Reg temp));
    SetE c_avx 4 (mul_add (Reg a2) (Reg b2) (Reg temp));
    SetR temp (Bin2 Mul (Reg a0) (Reg b5));
    SetR temp (mul_add (Reg a1) (Reg b4) (Reg temp));
    SetR temp (mul_add (Reg a2) (Reg b3) (Reg temp));
    SetR temp (mul_add (Reg a3) (Reg b2) (Reg temp));
    SetR temp (mul_add (Reg a4) (Reg b1) (Reg temp));
    SetE c_avx 5 (mul_add (Reg a5) (Reg b0) (Reg temp));
    SetR temp (Bin2 Mul (Reg a0) (Reg b6));
    SetR temp (mul_add (Reg a1) (Reg b5) (Reg temp));
    SetR temp (mul_add (Reg a5) (Reg b1) (Reg temp));
    SetR temp (mul_add (Reg a6) (Reg b0) (Reg temp));
    SetR temp (mul_add (Reg a2) (Reg b4) (Reg temp));
    SetR temp (mul_add (Reg a3) (Reg b3) (Reg temp));
    SetE c_avx 6 (mul_add (Reg a4) (Reg b2) (Reg temp));
    SetR temp (Bin2 Mul (Reg a0) (Reg b7));
    SetR temp (mul_add (Reg a1) (Reg b6) (Reg temp));
    SetR temp (mul_add (Reg a6) (Reg b1) (Reg temp));
    SetR temp (mul_add (Reg a7) (Reg b0) (Reg temp));
    SetR temp (mul_add (Reg a2) (Reg b5) (Reg temp));
    SetR temp (mul_add (Reg a3) (Reg b4) (Reg temp));
    SetR temp (mul_add (Reg a4) (Reg b3) (Reg temp));
    SetE c_avx 7 (mul_add (Reg a5) (Reg b2) (Reg temp));
    SetR temp (Bin2 Mul (Reg a0) (El b 8));
    SetR temp (mul_add (Reg a1) (Reg b7) (Reg temp));
    SetR temp (mul_add (Reg a7) (Reg b1) (Reg temp));
    SetR temp (mul_add (El a 8) (Reg b0) (Reg temp));
    SetR temp (mul_add (Reg a2) (Reg b6) (Reg temp));
    SetR temp (mul_add (Reg a3) (Reg b5) (Reg temp));
    SetR temp (mul_add (Reg a4) (Reg b4) (Reg temp));
    SetR temp (mul_add (Reg a5) (Reg b3) (Reg temp));
    SetE c_avx 8 (mul_add (Reg a6) (Reg b2) (Reg temp));
    SetR temp (Bin2 Mul (Reg a0) (El b 9));
    SetR temp (mul_add (Reg a1) (El b 8) (Reg temp));
    SetR temp (mul_add (El a 8) (Reg b1) (Reg temp));
    SetR temp (mul_add (El a 9) (Reg b0) (Reg temp));
    SetR temp (mul_add (Reg a2) (Reg b7) (Reg temp));
    SetR temp (mul_add (Reg a3) (Reg b6) (Reg temp));
    SetR temp (mul_add (Reg a4) (Reg b5) (Reg temp));
    SetR temp (mul_add (Reg a5) (Reg b4) (Reg temp));
    SetR temp (mul_add (Reg a6) (Reg b3) (Reg temp));
    SetE c_avx 9 (mul_add (Reg a7) (Reg b2) (Reg temp));
    SetR temp (Bin2 Mul (Reg a0) (El b 10));
    SetR temp (mul_add (Reg a1) (El b 9) (Reg temp));
    SetR temp (mul_add (El a 9) (Reg b1) (Reg temp));
    SetR temp (mul_add (El a 10) (Reg b0) (Reg temp));
    SetR temp (mul_add (Reg a2) (El b 8) (Reg temp));
    SetR temp (mul_add (Reg a3) (Reg b7) (Reg temp));
    SetR temp (mul_add (Reg a4) (Reg b6) (Reg temp));
    SetR temp (mul_add (Reg a5) (Reg b5) (Reg temp));
    SetR temp (mul_add (Reg a6) (Reg b4) (Reg temp));
    SetR temp (mul_add (Reg a7) (Reg b3) (Reg temp));
    SetE c_avx 10 (mul_add (El a 8) (Reg b2) (Reg temp));
    SetR temp (Bin2 Mul (Reg a0) (El b 11));
    SetR temp (mul_add (Reg a1) (El b 10) (Reg temp));
    SetR temp (mul_add (El a 10) (Reg b1) (Reg temp));
    SetR temp (mul_add (El a 11) (Reg b0) (Reg temp));
    SetR temp (mul_add (Reg a2) (El b 9) (Reg temp));
    SetR temp (mul_add (Reg a3) (El b 8) (Reg temp));
    SetR temp (mul_add (Reg a4) (Reg b7) (Reg temp));
    SetR temp (mul_add (Reg a5) (Reg b6) (Reg temp));
    SetR temp (mul_add (Reg a6) (Reg b5) (Reg temp));
    SetR temp (mul_add (Reg a7) (Reg b4) (Reg temp));
    SetR temp (mul_add (El a 8) (Reg b3) (Reg temp));
    SetE c_avx 11 (mul_add (El a 9) (Reg b2) (Reg temp));
    SetR temp (Bin2 Mul (Reg a0) (El b 12));
    SetR temp (mul_add (Reg a1) (El b 11) (Reg temp));
    SetR temp (mul_add (El a 11) (Reg b1) (Reg temp));
    SetR temp (mul_add (El a 12) (Reg b0) (Reg temp));
    SetR temp (mul_add (Reg a2) (El b 10) (Reg temp));
    SetR temp (mul_add (Reg a3) (El b 9) (Reg temp));
    SetR temp (mul_add (Reg a4) (El b 8) (Reg temp));
    SetR temp (mul_add (Reg a5) (Reg b7) (Reg temp));
    SetR temp (mul_add (Reg a6) (Reg b6) (Reg temp));
    SetR temp (mul_add (Reg a7) (Reg b5) (Reg temp));
    SetR temp (mul_add (El a 8) (Reg b4) (Reg temp));
    SetR temp (mul_add (El a 9) (Reg b3) (Reg temp));
    SetE c_avx 12 (mul_add (El a 10) (Reg b2) (Reg temp));
    SetR temp (Bin2 Mul (Reg a0) (El b 13));
    SetR temp (mul_add (Reg a1) (El b 12) (Reg temp));
    SetR temp (mul_add (El a 12) (Reg b1) (Reg temp));
    SetR temp (mul_add (El a 13) (Reg b0) (Reg temp));
    SetR temp (mul_add (Reg a2) (El b 11) (Reg temp));
    SetR temp (mul_add (Reg a3) (El b 10) (Reg temp));
    SetR temp (mul_add (Reg a4) (El b 9) (Reg temp));
    SetR temp (mul_add (Reg a5) (El b 8) (Reg temp));
    SetR temp (mul_add (Reg a6) (Reg b7) (Reg temp));
    SetR temp (mul_add (Reg a7) (Reg b6) (Reg temp));
    SetR temp (mul_add (El a 8) (Reg b5) (Reg temp));
    SetR temp (mul_add (El a 9) (Reg b4) (Reg temp));
    SetR temp (mul_add (El a 10) (Reg b3) (Reg temp));
    SetE c_avx 13 (mul_add (El a 11) (Reg b2) (Reg temp));
    SetR temp (Bin2 Mul (Reg a0) (El b 14));
    SetR temp (mul_add (Reg a1) (El b 13) (Reg temp));
    SetR temp (mul_add (El a 13) (Reg b1) (Reg temp));
    SetR temp (mul_add (El a 14) (Reg b0) (Reg temp));
    SetR temp (mul_add (Reg a2) (El b 12) (Reg temp));
    SetR temp (mul_add (Reg a3) (El b 11) (Reg temp));
    SetR temp (mul_add (Reg a4) (El b 10) (Reg temp));
    SetR temp (mul_add (Reg a5) (El b 9) (Reg temp));
    SetR temp (mul_add (Reg a6) (El b 8) (Reg temp));
    SetR temp (mul_add (Reg a7) (Reg b7) (Reg temp));
    SetR temp (mul_add (El a 8) (Reg b6) (Reg temp));
    SetR temp (mul_add (El a 9) (Reg b5) (Reg temp));
    SetR temp (mul_add (El a 10) (Reg b4) (Reg temp));
    SetR temp (mul_add (El a 11) (Reg b3) (Reg temp));
    SetE c_avx 14 (mul_add (El a 12) (Reg b2) (Reg temp));
    SetR temp (Bin2 Mul (Reg a0) (El b 15));
    SetR temp (mul_add (Reg a1) (El b 14) (Reg temp));
    SetR temp (mul_add (El a 14) (Reg b1) (Reg temp));
    SetR temp (mul_add (El a 15) (Reg b0) (Reg temp));
    SetR temp (mul_add (Reg a2) (El b 13) (Reg temp));
    SetR temp (mul_add (Reg a3) (El b 12) (Reg temp));
    SetR temp (mul_add (Reg a4) (El b 11) (Reg temp));
    SetR temp (mul_add (Reg a5) (El b 10) (Reg temp));
    SetR temp (mul_add (Reg a6) (El b 9) (Reg temp));
    SetR temp (mul_add (Reg a7) (El b 8) (Reg temp));
    SetR temp (mul_add (El a 8) (Reg b7) (Reg temp));
    SetR temp (mul_add (El a 9) (Reg b6) (Reg temp));
    SetR temp (mul_add (El a 10) (Reg b5) (Reg temp));
    SetR temp (mul_add (El a 11) (Reg b4) (Reg temp));
    SetR temp (mul_add (El a 12) (Reg b3) (Reg temp));
    SetE c_avx 15 (mul_add (El a 13) (Reg b2) (Reg temp));
    SetR a0 (El a 14);
    SetR a1 (El a 15);
    SetR a2 (El a 13);
    SetR a3 (El a 12);
    SetR a4 (El a 11);
    SetR a5 (El a 10);
    SetR a6 (El a 9);
    SetR a7 (El a 8);
    SetR b0 (El b 14);
    SetR b1 (El b 15);
    SetR b2 (El b 13);
    SetR b3 (El b 12);
    SetR b4 (El b 11);
    SetR b5 (El b 10);
    SetR b6 (El b 9);
    SetR b7 (El b 8);
    SetR temp (Bin2 Mul (El a 1) (Reg b1));
    SetR temp (mul_add (El a 2) (Reg b0) (Reg temp));
    SetR temp (mul_add (El a 3) (Reg b2) (Reg temp));
    SetR temp (mul_add (El a 4) (Reg b3) (Reg temp));
    SetR temp (mul_add (El a 5) (Reg b4) (Reg temp));
    SetR temp (mul_add (El a 6) (Reg b5) (Reg temp));
    SetR temp (mul_add (El a 7) (Reg b6) (Reg temp));
    SetR temp (mul_add (Reg a7) (Reg b7) (Reg temp));
    SetR temp (mul_add (Reg a6) (El b 7) (Reg temp));
    SetR temp (mul_add (Reg a5) (El b 6) (Reg temp));
    SetR temp (mul_add (Reg a4) (El b 5) (Reg temp));
    SetR temp (mul_add (Reg a3) (El b 4) (Reg temp));
    SetR temp (mul_add (Reg a2) (El b 3) (Reg temp));
    SetR temp (mul_add (Reg a0) (El b 2) (Reg temp));
    SetE c_avx 16 (mul_add (Reg a1) (El b 1) (Reg temp));
    SetR temp (Bin2 Mul (El a 2) (Reg b1));
    SetR temp (mul_add (El a 3) (Reg b0) (Reg temp));
    SetR temp (mul_add (El a 4) (Reg b2) (Reg temp));
    SetR temp (mul_add (El a 5) (Reg b3) (Reg temp));
    SetR temp (mul_add (El a 6) (Reg b4) (Reg temp));
    SetR temp (mul_add (El a 7) (Reg b5) (Reg temp));
    SetR temp (mul_add (Reg a7) (Reg b6) (Reg temp));
    SetR temp (mul_add (Reg a6) (Reg b7) (Reg temp));
    SetR temp (mul_add (Reg a5) (El b 7) (Reg temp));
    SetR temp (mul_add (Reg a4) (El b 6) (Reg temp));
    SetR temp (mul_add (Reg a3) (El b 5) (Reg temp));
    SetR temp (mul_add (Reg a2) (El b 4) (Reg temp));
    SetR temp (mul_add (Reg a0) (El b 3) (Reg temp));
    SetE c_avx 17 (mul_add (Reg a1) (El b 2) (Reg temp));
    SetR temp (Bin2 Mul (El a 3) (Reg b1));
    SetR temp (mul_add (El a 4) (Reg b0) (Reg temp));
    SetR temp (mul_add (El a 5) (Reg b2) (Reg temp));
    SetR temp (mul_add (El a 6) (Reg b3) (Reg temp));
    SetR temp (mul_add (El a 7) (Reg b4) (Reg temp));
    SetR temp (mul_add (Reg a7) (Reg b5) (Reg temp));
    SetR temp (mul_add (Reg a6) (Reg b6) (Reg temp));
    SetR temp (mul_add (Reg a5) (Reg b7) (Reg temp));
    SetR temp (mul_add (Reg a4) (El b 7) (Reg temp));
    SetR temp (mul_add (Reg a3) (El b 6) (Reg temp));
    SetR temp (mul_add (Reg a2) (El b 5) (Reg temp));
    SetR temp (mul_add (Reg a0) (El b 4) (Reg temp));
    SetE c_avx 18 (mul_add (Reg a1) (El b 3) (Reg temp));
    SetR temp (Bin2 Mul (El a 4) (Reg b1));
    SetR temp (mul_add (El a 5) (Reg b0) (Reg temp));
    SetR temp (mul_add (El a 6) (Reg b2) (Reg temp));
    SetR temp (mul_add (El a 7) (Reg b3) (Reg temp));
    SetR temp (mul_add (Reg a7) (Reg b4) (Reg temp));
    SetR temp (mul_add (Reg a6) (Reg b5) (Reg temp));
    SetR temp (mul_add (Reg a5) (Reg b6) (Reg temp));
    SetR temp (mul_add (Reg a4) (Reg b7) (Reg temp));
    SetR temp (mul_add (Reg a3) (El b 7) (Reg temp));
    SetR temp (mul_add (Reg a2) (El b 6) (Reg temp));
    SetR temp (mul_add (Reg a0) (El b 5) (Reg temp));
    SetE c_avx 19 (mul_add (Reg a1) (El b 4) (Reg temp));
    SetR temp (Bin2 Mul (El a 5) (Reg b1));
    SetR temp (mul_add (El a 6) (Reg b0) (Reg temp));
    SetR temp (mul_add (El a 7) (Reg b2) (Reg temp));
    SetR temp (mul_add (Reg a7) (Reg b3) (Reg temp));
    SetR temp (mul_add (Reg a6) (Reg b4) (Reg temp));
    SetR temp (mul_add (Reg a5) (Reg b5) (Reg temp));
    SetR temp (mul_add (Reg a4) (Reg b6) (Reg temp));
    SetR temp (mul_add (Reg a3) (Reg b7) (Reg temp));
    SetR temp (mul_add (Reg a2) (El b 7) (Reg temp));
    SetR temp (mul_add (Reg a0) (El b 6) (Reg temp));
    SetE c_avx 20 (mul_add (Reg a1) (El b 5) (Reg temp));
    SetR temp (Bin2 Mul (El a 6) (Reg b1));
    SetR temp (mul_add (El a 7) (Reg b0) (Reg temp));
    SetR temp (mul_add (Reg a7) (Reg b2) (Reg temp));
    SetR temp (mul_add (Reg a6) (Reg b3) (Reg temp));
    SetR temp (mul_add (Reg a5) (Reg b4) (Reg temp));
    SetR temp (mul_add (Reg a4) (Reg b5) (Reg temp));
    SetR temp (mul_add (Reg a3) (Reg b6) (Reg temp));
    SetR temp (mul_add (Reg a2) (Reg b7) (Reg temp));
    SetR temp (mul_add (Reg a0) (El b 7) (Reg temp));
    SetE c_avx 21 (mul_add (Reg a1) (El b 6) (Reg temp));
    SetR temp (Bin2 Mul (El a 7) (Reg b1));
    SetR temp (mul_add (Reg a7) (Reg b0) (Reg temp));
    SetR temp (mul_add (Reg a6) (Reg b2) (Reg temp));
    SetR temp (mul_add (Reg a5) (Reg b3) (Reg temp));
    SetR temp (mul_add (Reg a4) (Reg b4) (Reg temp));
    SetR temp (mul_add (Reg a3) (Reg b5) (Reg temp));
    SetR temp (mul_add (Reg a2) (Reg b6) (Reg temp));
    SetR temp (mul_add (Reg a0) (Reg b7) (Reg temp));
    SetE c_avx 22 (mul_add (Reg a1) (El b 7) (Reg temp));
    SetR temp (Bin2 Mul (Reg a7) (Reg b1));
    SetR temp (mul_add (Reg a6) (Reg b0) (Reg temp));
    SetR temp (mul_add (Reg a5) (Reg b2) (Reg temp));
    SetR temp (mul_add (Reg a4) (Reg b3) (Reg temp));
    SetR temp (mul_add (Reg a3) (Reg b4) (Reg temp));
    SetR temp (mul_add (Reg a2) (Reg b5) (Reg temp));
    SetR temp (mul_add (Reg a0) (Reg b6) (Reg temp));
    SetE c_avx 23 (mul_add (Reg a1) (Reg b7) (Reg temp));
    SetR temp (Bin2 Mul (Reg a6) (Reg b1));
    SetR temp (mul_add (Reg a5) (Reg b0) (Reg temp));
    SetR temp (mul_add (Reg a4) (Reg b2) (Reg temp));
    SetR temp (mul_add (Reg a3) (Reg b3) (Reg temp));
    SetR temp (mul_add (Reg a2) (Reg b4) (Reg temp));
    SetR temp (mul_add (Reg a0) (Reg b5) (Reg temp));
    SetE c_avx 24 (mul_add (Reg a1) (Reg b6) (Reg temp));
    SetR temp (Bin2 Mul (Reg a5) (Reg b1));
    SetR temp (mul_add (Reg a4) (Reg b0) (Reg temp));
    SetR temp (mul_add (Reg a3) (Reg b2) (Reg temp));
    SetR temp (mul_add (Reg a2) (Reg b3) (Reg temp));
    SetR temp (mul_add (Reg a0) (Reg b4) (Reg temp));
    SetE c_avx 25 (mul_add (Reg a1) (Reg b5) (Reg temp));
    SetR temp (Bin2 Mul (Reg a4) (Reg b1));
    SetR temp (mul_add (Reg a3) (Reg b0) (Reg temp));
    SetR temp (mul_add (Reg a2) (Reg b2) (Reg temp));
    SetR temp (mul_add (Reg a0) (Reg b3) (Reg temp));
    SetE c_avx 26 (mul_add (Reg a1) (Reg b4) (Reg temp));
    SetR temp (Bin2 Mul (Reg a3) (Reg b1));
    SetR temp (mul_add (Reg a2) (Reg b0) (Reg temp));
    SetR temp (mul_add (Reg a0) (Reg b2) (Reg temp));
    SetE c_avx 27 (mul_add (Reg a1) (Reg b3) (Reg temp));
    SetR temp (Bin2 Mul (Reg a2) (Reg b1));
    SetR temp (mul_add (Reg a0) (Reg b0) (Reg temp));
    SetE c_avx 28 (mul_add (Reg a1) (Reg b2) (Reg temp));
    SetR temp (Bin2 Mul (Reg a0) (Reg b1));
    SetE c_avx 29 (mul_add (Reg a1) (Reg b0) (Reg temp));
    SetE c_avx 30 (Bin2 Mul (Reg a1) (Reg b1));
    SetE c_avx 31 Zero].
End schoolbook_avx_new2.

Section batch_eval.
Local Notation a := 0. Local Notation a_bucket := 1.
Local Notation r0_avx := 0. Local Notation r1_avx := 1. Local Notation r2_avx := 2. Local Notation r3_avx := 3.
(** polymul/toom-cook_4way.c:30-153. *)
Definition batch_eval_code : list vstmt := [
    SetR r0_avx (El a 0);
    SetR r1_avx (El a 1);
    SetR r2_avx (El a 2);
    SetR r3_avx (El a 3);
    SetE a_bucket 0 (Reg r0_avx);
    SetE a_bucket 1 (Reg r1_avx);
    SetE a_bucket 2 (Reg r2_avx);
    SetE a_bucket 3 (Reg r3_avx);
    SetE a_bucket 4 (Bin2 Add (Reg r0_avx) (Reg r1_avx));
    SetE a_bucket 5 (Bin2 Add (Reg r2_avx) (Reg r3_avx));
    SetE a_bucket 6 (Bin2 Add (Reg r0_avx) (Reg r2_avx));
    SetE a_bucket 7 (Bin2 Add (Reg r1_avx) (Reg r3_avx));
    SetE a_bucket 8 (Bin2 Add (El a_bucket 6) (El a_bucket 7));
    SetR r0_avx (El a 4);
    SetR r1_avx (El a 5);
    SetR r2_avx (El a 6);
    SetR r3_avx (El a 7);
    SetE a_bucket 9 (Reg r0_avx);
    SetE a_bucket 10 (Reg r1_avx);
    SetE a_bucket 11 (Reg r2_avx);
    SetE a_bucket 12 (Reg r3_avx);
    SetE a_bucket 13 (Bin2 Add (Reg r0_avx) (Reg r1_avx));
    SetE a_bucket 14 (Bin2 Add (Reg r2_avx) (Reg r3_avx));
    SetE a_bucket 15 (Bin2 Add (Reg r0_avx) (Reg r2_avx));
    SetE a_bucket 16 (Bin2 Add (Reg r1_avx) (Reg r3_avx));
    SetE a_bucket 17 (Bin2 Add (El a_bucket 15) (El a_bucket 16));
    SetR r0_avx (El a 8);
    SetR r1_avx (El a 9);
    SetR r2_avx (El a 10);
    SetR r3_avx (El a 11);
    SetE a_bucket 18 (Reg r0_avx);
    SetE a_bucket 19 (Reg r1_avx);
    SetE a_bucket 20 (Reg r2_avx);
    SetE a_bucket 21 (Reg r3_avx);
    SetE a_bucket 22 (Bin2 Add (Reg r0_avx) (Reg r1_avx));
    SetE a_bucket 23 (Bin2 Add (Reg r2_avx) (Reg r3_avx));
    SetE a_bucket 24 (Bin2 Add (Reg r0_avx) (Reg r2_avx));
    SetE a_bucket 25 (Bin2 Add (Reg r1_avx) (Reg r3_avx));
    SetE a_bucket 26 (Bin2 Add (El a_bucket 24) (El a_bucket 25));
    SetR r0_avx (El a 12);
    SetR r1_avx (El a 13);
    SetR r2_avx (El a 14);
    SetR r3_avx (El a 15);
    SetE a_bucket 27 (Reg r0_avx);
    SetE a_bucket 28 (Reg r1_avx);
    SetE a_bucket 29 (Reg r2_avx);
    SetE a_bucket 30 (Reg r3_avx);
    SetE a_bucket 31 (Bin2 Add (Reg r0_avx) (Reg r1_avx));
    SetE a_bucket 32 (Bin2 Add (Reg r2_avx) (Reg r3_avx));
    SetE a_bucket 33 (Bin2 Add (Reg r0_avx) (Reg r2_avx));
    SetE a_bucket 34 (Bin2 Add (Reg r1_avx) (Reg r3_avx));
    SetE a_bucket 35 (Bin2 Add (El a_bucket 33) (El a_bucket 34));
    SetR r0_avx (El a 16);
    SetR r1_avx (El a 17);
    SetR r2_avx (El a 18);
    SetR r3_avx (El a 19);
    SetE a_bucket 36 (Reg r0_avx);
    SetE a_bucket 37 (Reg r1_avx);
    SetE a_bucket 38 (Reg r2_avx);
    SetE a_bucket 39 (Reg r3_avx);
    SetE a_bucket 40 (Bin2 Add (Reg r0_avx) (Reg r1_avx));
    SetE a_bucket 41 (Bin2 Add (Reg r2_avx) (Reg r3_avx));
    SetE a_bucket 42 (Bin2 Add (Reg r0_avx) (Reg r2_avx));
    SetE a_bucket 43 (Bin2 Add (Reg r1_avx) (Reg r3_avx));
    SetE a_bucket 44 (Bin2 Add (El a_bucket 42) (El a_bucket 43));
    SetR r0_avx (El a 20);
    SetR r1_avx (El a 21);
    SetR r2_avx (El a 22);
    SetR r3_avx (El a 23);
    SetE a_bucket 45 (Reg r0_avx);
    SetE a_bucket 46 (Reg r1_avx);
    SetE a_bucket 47 (Reg r2_avx);
    SetE a_bucket 48 (Reg r3_avx);
    SetE a_bucket 49 (Bin2 Add (Reg r0_avx) (Reg r1_avx));
    SetE a_bucket 50 (Bin2 Add (Reg r2_avx) (Reg r3_avx));
    SetE a_bucket 51 (Bin2 Add (Reg r0_avx) (Reg r2_avx));
    SetE a_bucket 52 (Bin2 Add (Reg r1_avx) (Reg r3_avx));
    SetE a_bucket 53 (Bin2 Add (El a_bucket 51) (El a_bucket 52));
    SetR r0_avx (El a 24);
    SetR r1_avx (El a 25);
    SetR r2_avx (El a 26);
    SetR r3_avx (El a 27);
    SetE a_bucket 54 (Reg r0_avx);
    SetE a_bucket 55 (Reg r1_avx);
    SetE a_bucket 56 (Reg r2_avx);
    SetE a_bucket 57 (Reg r3_avx);
    SetE a_bucket 58 (Bin2 Add (Reg r0_avx) (Reg r1_avx));
    SetE a_bucket 59 (Bin2 Add (Reg r2_avx) (Reg r3_avx));
    SetE a_bucket 60 (Bin2 Add (Reg r0_avx) (Reg r2_avx));
    SetE a_bucket 61 (Bin2 Add (Reg r1_avx) (Reg r3_avx));
    SetE a_bucket 62 (Bin2 Add (El a_bucket 60) (El a_bucket 61))].
End batch_eval.

Section KARA_eval.
Local Notation b := 0. Local Notation b_bucket := 1.
Local Notation r0_avx := 0. Local Notation r1_avx := 1. Local Notation r2_avx := 2. Local Notation r3_avx := 3.
(** polymul/toom-cook_4way.c:228-334. *)
Definition KARA_eval_code : list vstmt := [
    SetR r0_avx (El b 0);
    SetR r1_avx (El b 1);
    SetR r2_avx (El b 2);
    SetR r3_avx (El b 3);
    SetE b_bucket 0 (Reg r0_avx);
    SetE b_bucket 1 (Reg r1_avx);
    SetE b_bucket 2 (Reg r2_avx);
    SetE b_bucket 3 (Reg r3_avx);
    SetE b_bucket 4 (Bin2 Add (Reg r0_avx) (Reg r1_avx));
    SetE b_bucket 5 (Bin2 Add (Reg r2_avx) (Reg r3_avx));
    SetE b_bucket 6 (Bin2 Add (Reg r0_avx) (Reg r2_avx));
    SetE b_bucket 7 (Bin2 Add (Reg r1_avx) (Reg r3_avx));
    SetE b_bucket 8 (Bin2 Add (El b_bucket 6) (El b_bucket 7));
    SetR r0_avx (El b 4);
    SetR r1_avx (El b 5);
    SetR r2_avx (El b 6);
    SetR r3_avx (El b 7);
    SetE b_bucket 9 (Reg r0_avx);
    SetE b_bucket 10 (Reg r1_avx);
    SetE b_bucket 11 (Reg r2_avx);
    SetE b_bucket 12 (Reg r3_avx);
    SetE b_bucket 13 (Bin2 Add (Reg r0_avx) (Reg r1_avx));
    SetE b_bucket 14 (Bin2 Add (Reg r2_avx) (Reg r3_avx));
    SetE b_bucket 15 (Bin2 Add (Reg r0_avx) (Reg r2_avx));
    SetE b_bucket 16 (Bin2 Add (Reg r1_avx) (Reg r3_avx));
    SetE b_bucket 17 (Bin2 Add (El b_bucket 15) (El b_bucket 16));
    SetR r0_avx (El b 8);
    SetR r1_avx (El b 9);
    SetR r2_avx (El b 10);
    SetR r3_avx (El b 11);
    SetE b_bucket 18 (Reg r0_avx);
    SetE b_bucket 19 (Reg r1_avx);
    SetE b_bucket 20 (Reg r2_avx);
    SetE b_bucket 21 (Reg r3_avx);
    SetE b_bucket 22 (Bin2 Add (Reg r0_avx) (Reg r1_avx));
    SetE b_bucket 23 (Bin2 Add (Reg r2_avx) (Reg r3_avx));
    SetE b_bucket 24 (Bin2 Add (Reg r0_avx) (Reg r2_avx));
    SetE b_bucket 25 (Bin2 Add (Reg r1_avx) (Reg r3_avx));
    SetE b_bucket 26 (Bin2 Add (El b_bucket 24) (El b_bucket 25));
    SetR r0_avx (El b 12);
    SetR r1_avx (El b 13);
    SetR r2_avx (El b 14);
    SetR r3_avx (El b 15);
    SetE b_bucket 27 (Reg r0_avx);
    SetE b_bucket 28 (Reg r1_avx);
    SetE b_bucket 29 (Reg r2_avx);
    SetE b_bucket 30 (Reg r3_avx);
    SetE b_bucket 31 (Bin2 Add (Reg r0_avx) (Reg r1_avx));
    SetE b_bucket 32 (Bin2 Add (Reg r2_avx) (Reg r3_avx));
    SetE b_bucket 33 (Bin2 Add (Reg r0_avx) (Reg r2_avx));
    SetE b_bucket 34 (Bin2 Add (Reg r1_avx) (Reg r3_avx));
    SetE b_bucket 35 (Bin2 Add (El b_bucket 33) (El b_bucket 34));
    SetR r0_avx (El b 16);
    SetR r1_avx (El b 17);
    SetR r2_avx (El b 18);
    SetR r3_avx (El b 19);
    SetE b_bucket 36 (Reg r0_avx);
    SetE b_bucket 37 (Reg r1_avx);
    SetE b_bucket 38 (Reg r2_avx);
    SetE b_bucket 39 (Reg r3_avx);
    SetE b_bucket 40 (Bin2 Add (Reg r0_avx) (Reg r1_avx));
    SetE b_bucket 41 (Bin2 Add (Reg r2_avx) (Reg r3_avx));
    SetE b_bucket 42 (Bin2 Add (Reg r0_avx) (Reg r2_avx));
    SetE b_bucket 43 (Bin2 Add (Reg r1_avx) (Reg r3_avx));
    SetE b_bucket 44 (Bin2 Add (El b_bucket 42) (El b_bucket 43));
    SetR r0_avx (El b 20);
    SetR r1_avx (El b 21);
    SetR r2_avx (El b 22);
    SetR r3_avx (El b 23);
    SetE b_bucket 45 (Reg r0_avx);
    SetE b_bucket 46 (Reg r1_avx);
    SetE b_bucket 47 (Reg r2_avx);
    SetE b_bucket 48 (Reg r3_avx);
    SetE b_bucket 49 (Bin2 Add (Reg r0_avx) (Reg r1_avx));
    SetE b_bucket 50 (Bin2 Add (Reg r2_avx) (Reg r3_avx));
    SetE b_bucket 51 (Bin2 Add (Reg r0_avx) (Reg r2_avx));
    SetE b_bucket 52 (Bin2 Add (Reg r1_avx) (Reg r3_avx));
    SetE b_bucket 53 (Bin2 Add (El b_bucket 51) (El b_bucket 52));
    SetR r0_avx (El b 24);
    SetR r1_avx (El b 25);
    SetR r2_avx (El b 26);
    SetR r3_avx (El b 27);
    SetE b_bucket 54 (Reg r0_avx);
    SetE b_bucket 55 (Reg r1_avx);
    SetE b_bucket 56 (Reg r2_avx);
    SetE b_bucket 57 (Reg r3_avx);
    SetE b_bucket 58 (Bin2 Add (Reg r0_avx) (Reg r1_avx));
    SetE b_bucket 59 (Bin2 Add (Reg r2_avx) (Reg r3_avx));
    SetE b_bucket 60 (Bin2 Add (Reg r0_avx) (Reg r2_avx));
    SetE b_bucket 61 (Bin2 Add (Reg r1_avx) (Reg r3_avx));
    SetE b_bucket 62 (Bin2 Add (El b_bucket 60) (El b_bucket 61))].
End KARA_eval.

Section KARA_interpol.
Local Notation c_bucket := 0. Local Notation result_final0 := 1. Local Notation result_final1 := 2. Local Notation result_final2 := 3. Local Notation result_final3 := 4. Local Notation result_final4 := 5. Local Notation result_final5 := 6. Local Notation result_final6 := 7.
Local Notation res_avx0 := 0. Local Notation res_avx2 := 1. Local Notation res_avx4 := 2. Local Notation res_avx6 := 3. Local Notation c6_avx := 4. Local Notation c7_avx := 5. Local Notation c8_avx := 6. Local Notation res_avx1 := 7. Local Notation res_avx3 := 8. Local Notation res_avx5 := 9. Local Notation res_avx7 := 10. Local Notation c22_avx := 11. Local Notation c23_avx := 12. Local Notation c21_avx := 13. Local Notation c24_avx := 14. Local Notation c20_avx := 15. Local Notation temp := 16.
(** polymul/toom-cook_4way.c:356-814. *)
Definition KARA_interpol_code : list vstmt := [
    SetR res_avx0 (El c_bucket 0);
    SetR res_avx2 (El c_bucket 1);
    SetR res_avx4 (El c_bucket 2);
    SetR res_avx6 (El c_bucket 3);
    SetR c6_avx (El c_bucket 6);
    SetR c7_avx (El c_bucket 7);
    SetR c8_avx (Bin2 Sub (Bin2 Sub (El c_bucket 8) (Reg c6_avx)) (Reg c7_avx));
    SetR res_avx1 (El c_bucket 16);
    SetR res_avx3 (El c_bucket 17);
    SetR res_avx5 (El c_bucket 18);
    SetR res_avx7 (El c_bucket 19);
    SetR c22_avx (El c_bucket 22);
    SetR c23_avx (El c_bucket 23);
    SetR c21_avx (Bin2 Sub (Bin2 Sub (El c_bucket 21) (Reg res_avx5)) (Reg res_avx7));
    SetR c24_avx (Bin2 Sub (Bin2 Sub (El c_bucket 24) (Reg c22_avx)) (Reg c23_avx));
    SetR c20_avx (Bin2 Sub (Bin2 Sub (El c_bucket 20) (Reg res_avx1)) (Reg res_avx3));
    SetR temp (Bin2 Sub (Bin2 Sub (El c_bucket 5) (Reg res_avx4)) (Reg res_avx6));
    SetR res_avx5 (Bin2 Add (Reg res_avx5) (Reg temp));
    SetR temp (Bin2 Sub (Bin2 Sub (El c_bucket 4) (Reg res_avx0)) (Reg res_avx2));
    SetR res_avx1 (Bin2 Add (Reg res_avx1) (Reg temp));
    SetR c22_avx (Bin2 Add (Reg c22_avx) (Reg c8_avx));
    SetR res_avx6 (Bin2 Add (Reg res_avx6) (Reg c21_avx));
    SetR res_avx2 (Bin2 Add (Reg res_avx2) (Reg c20_avx));
    SetR c7_avx (Bin2 Add (Reg c7_avx) (Reg c24_avx));
    SetR c6_avx (Bin2 Sub (Bin2 Sub (Reg c6_avx) (Reg res_avx0)) (Reg res_avx4));
    SetR c22_avx (Bin2 Sub (Bin2 Sub (Reg c22_avx) (Reg res_avx1)) (Reg res_avx5));
    SetR c7_avx (Bin2 Sub (Bin2 Sub (Reg c7_avx) (Reg res_avx2)) (Reg res_avx6));
    SetR c23_avx (Bin2 Sub (Bin2 Sub (Reg c23_avx) (Reg res_avx3)) (Reg res_avx7));
    SetE result_final0 0 (Reg res_avx0);
    SetE result_final0 1 (Reg res_avx1);
    SetE result_final0 2 (Bin2 Add (Reg res_avx2) (Reg c6_avx));
    SetE result_final0 3 (Bin2 Add (Reg res_avx3) (Reg c22_avx));
    SetE result_final0 4 (Bin2 Add (Reg res_avx4) (Reg c7_avx));
    SetE result_final0 5 (Bin2 Add (Reg res_avx5) (Reg c23_avx));
    SetE result_final0 6 (Reg res_avx6);
    SetE result_final0 7 (Reg res_avx7);
    SetR res_avx0 (El c_bucket 9);
    SetR res_avx2 (El c_bucket 10);
    SetR res_avx4 (El c_bucket 11);
    SetR res_avx6 (El c_bucket 12);
    SetR c6_avx (El c_bucket 15);
    SetR c7_avx (El c_bucket 32);
    SetR c8_avx (Bin2 Sub (Bin2 Sub (El c_bucket 33) (Reg c6_avx)) (Reg c7_avx));
    SetR res_avx1 (El c_bucket 25);
    SetR res_avx3 (El c_bucket 26);
    SetR res_avx5 (El c_bucket 27);
    SetR res_avx7 (El c_bucket 28);
    SetR c22_avx (El c_bucket 31);
    SetR c23_avx (El c_bucket 48);
    SetR c21_avx (Bin2 Sub (Bin2 Sub (El c_bucket 30) (Reg res_avx5)) (Reg res_avx7));
    SetR c24_avx (Bin2 Sub (Bin2 Sub (El c_bucket 49) (Reg c22_avx)) (Reg c23_avx));
    SetR c20_avx (Bin2 Sub (Bin2 Sub (El c_bucket 29) (Reg res_avx1)) (Reg res_avx3));
    SetR temp (Bin2 Sub (Bin2 Sub (El c_bucket 14) (Reg res_avx4)) (Reg res_avx6));
    SetR res_avx5 (Bin2 Add (Reg res_avx5) (Reg temp));
    SetR temp (Bin2 Sub (Bin2 Sub (El c_bucket 13) (Reg res_avx0)) (Reg res_avx2));
    SetR res_avx1 (Bin2 Add (Reg res_avx1) (Reg temp));
    SetR c22_avx (Bin2 Add (Reg c22_avx) (Reg c8_avx));
    SetR res_avx6 (Bin2 Add (Reg res_avx6) (Reg c21_avx));
    SetR res_avx2 (Bin2 Add (Reg res_avx2) (Reg c20_avx));
    SetR c7_avx (Bin2 Add (Reg c7_avx) (Reg c24_avx));
    SetR c6_avx (Bin2 Sub (Bin2 Sub (Reg c6_avx) (Reg res_avx0)) (Reg res_avx4));
    SetR c22_avx (Bin2 Sub (Bin2 Sub (Reg c22_avx) (Reg res_avx1)) (Reg res_avx5));
    SetR c7_avx (Bin2 Sub (Bin2 Sub (Reg c7_avx) (Reg res_avx2)) (Reg res_avx6));
    SetR c23_avx (Bin2 Sub (Bin2 Sub (Reg c23_avx) (Reg res_avx3)) (Reg res_avx7));
    SetE result_final1 0 (Reg res_avx0);
    SetE result_final1 1 (Reg res_avx1);
    SetE result_final1 2 (Bin2 Add (Reg res_avx2) (Reg c6_avx));
    SetE result_final1 3 (Bin2 Add (Reg res_avx3) (Reg c22_avx));
    SetE result_final1 4 (Bin2 Add (Reg res_avx4) (Reg c7_avx));
    SetE result_final1 5 (Bin2 Add (Reg res_avx5) (Reg c23_avx));
    SetE result_final1 6 (Reg res_avx6);
    SetE result_final1 7 (Reg res_avx7);
    SetR res_avx0 (El c_bucket 34);
    SetR res_avx2 (El c_bucket 35);
    SetR res_avx4 (El c_bucket 36);
    SetR res_avx6 (El c_bucket 37);
    SetR c6_avx (El c_bucket 40);
    SetR c7_avx (El c_bucket 41);
    SetR c8_avx (Bin2 Sub (Bin2 Sub (El c_bucket 42) (Reg c6_avx)) (Reg c7_avx));
    SetR res_avx1 (El c_bucket 50);
    SetR res_avx3 (El c_bucket 51);
    SetR res_avx5 (El c_bucket 52);
    SetR res_avx7 (El c_bucket 53);
    SetR c22_avx (El c_bucket 56);
    SetR c23_avx (El c_bucket 57);
    SetR c21_avx (Bin2 Sub (Bin2 Sub (El c_bucket 55) (Reg res_avx5)) (Reg res_avx7));
    SetR c24_avx (Bin2 Sub (Bin2 Sub (El c_bucket 58) (Reg c22_avx)) (Reg c23_avx));
    SetR c20_avx (Bin2 Sub (Bin2 Sub (El c_bucket 54) (Reg res_avx1)) (Reg res_avx3));
    SetR temp (Bin2 Sub (Bin2 Sub (El c_bucket 39) (Reg res_avx4)) (Reg res_avx6));
    SetR res_avx5 (Bin2 Add (Reg res_avx5) (Reg temp));
    SetR temp (Bin2 Sub (Bin2 Sub (El c_bucket 38) (Reg res_avx0)) (Reg res_avx2));
    SetR res_avx1 (Bin2 Add (Reg res_avx1) (Reg temp));
    SetR c22_avx (Bin2 Add (Reg c22_avx) (Reg c8_avx));
    SetR res_avx6 (Bin2 Add (Reg res_avx6) (Reg c21_avx));
    SetR res_avx2 (Bin2 Add (Reg res_avx2) (Reg c20_avx));
    SetR c7_avx (Bin2 Add (Reg c7_avx) (Reg c24_avx));
    SetR c6_avx (Bin2 Sub (Bin2 Sub (Reg c6_avx) (Reg res_avx0)) (Reg res_avx4));
    SetR c22_avx (Bin2 Sub (Bin2 Sub (Reg c22_avx) (Reg res_avx1)) (Reg res_avx5));
    SetR c7_avx (Bin2 Sub (Bin2 Sub (Reg c7_avx) (Reg res_avx2)) (Reg res_avx6));
    SetR c23_avx (Bin2 Sub (Bin2 Sub (Reg c23_avx) (Reg res_avx3)) (Reg res_avx7));
    SetE result_final2 0 (Reg res_avx0);
    SetE result_final2 1 (Reg res_avx1);
    SetE result_final2 2 (Bin2 Add (Reg res_avx2) (Reg c6_avx));
    SetE result_final2 3 (Bin2 Add (Reg res_avx3) (Reg c22_avx));
    SetE result_final2 4 (Bin2 Add (Reg res_avx4) (Reg c7_avx));
    SetE result_final2 5 (Bin2 Add (Reg res_avx5) (Reg c23_avx));
    SetE result_final2 6 (Reg res_avx6);
    SetE result_final2 7 (Reg res_avx7);
    SetR res_avx0 (El c_bucket 43);
    SetR res_avx2 (El c_bucket 44);
    SetR res_avx4 (El c_bucket 45);
    SetR res_avx6 (El c_bucket 46);
    SetR c6_avx (El c_bucket 65);
    SetR c7_avx (El c_bucket 66);
    SetR c8_avx (Bin2 Sub (Bin2 Sub (El c_bucket 67) (Reg c6_avx)) (Reg c7_avx));
    SetR res_avx1 (El c_bucket 59);
    SetR res_avx3 (El c_bucket 60);
    SetR res_avx5 (El c_bucket 61);
    SetR res_avx7 (El c_bucket 62);
    SetR c22_avx (El c_bucket 81);
    SetR c23_avx (El c_bucket 82);
    SetR c21_avx (Bin2 Sub (Bin2 Sub (El c_bucket 80) (Reg res_avx5)) (Reg res_avx7));
    SetR c24_avx (Bin2 Sub (Bin2 Sub (El c_bucket 83) (Reg c22_avx)) (Reg c23_avx));
    SetR c20_avx (Bin2 Sub (Bin2 Sub (El c_bucket 63) (Reg res_avx1)) (Reg res_avx3));
    SetR temp (Bin2 Sub (Bin2 Sub (El c_bucket 64) (Reg res_avx4)) (Reg res_avx6));
    SetR res_avx5 (Bin2 Add (Reg res_avx5) (Reg temp));
    SetR temp (Bin2 Sub (Bin2 Sub (El c_bucket 47) (Reg res_avx0)) (Reg res_avx2));
    SetR res_avx1 (Bin2 Add (Reg res_avx1) (Reg temp));
    SetR c22_avx (Bin2 Add (Reg c22_avx) (Reg c8_avx));
    SetR res_avx6 (Bin2 Add (Reg res_avx6) (Reg c21_avx));
    SetR res_avx2 (Bin2 Add (Reg res_avx2) (Reg c20_avx));
    SetR c7_avx (Bin2 Add (Reg c7_avx) (Reg c24_avx));
    SetR c6_avx (Bin2 Sub (Bin2 Sub (Reg c6_avx) (Reg res_avx0)) (Reg res_avx4));
    SetR c22_avx (Bin2 Sub (Bin2 Sub (Reg c22_avx) (Reg res_avx1)) (Reg res_avx5));
    SetR c7_avx (Bin2 Sub (Bin2 Sub (Reg c7_avx) (Reg res_avx2)) (Reg res_avx6));
    SetR c23_avx (Bin2 Sub (Bin2 Sub (Reg c23_avx) (Reg res_avx3)) (Reg res_avx7));
    SetE result_final3 0 (Reg res_avx0);
    SetE result_final3 1 (Reg res_avx1);
    SetE result_final3 2 (Bin2 Add (Reg res_avx2) (Reg c6_avx));
    SetE result_final3 3 (Bin2 Add (Reg res_avx3) (Reg c22_avx));
    SetE result_final3 4 (Bin2 Add (Reg res_avx4) (Reg c7_avx));
    SetE result_final3 5 (Bin2 Add (Reg res_avx5) (Reg c23_avx));
    SetE result_final3 6 (Reg res_avx6);
    SetE result_final3 7 (Reg res_avx7);
    SetR res_avx0 (El c_bucket 68);
    SetR res_avx2 (El c_bucket 69);
    SetR res_avx4 (El c_bucket 70);
    SetR res_avx6 (El c_bucket 71);
    SetR c6_avx (El c_bucket 74);
    SetR c7_avx (El c_bucket 75);
    SetR c8_avx (Bin2 Sub (Bin2 Sub (El c_bucket 76) (Reg c6_avx)) (Reg c7_avx));
    SetR res_avx1 (El c_bucket 84);
    SetR res_avx3 (El c_bucket 85);
    SetR res_avx5 (El c_bucket 86);
    SetR res_avx7 (El c_bucket 87);
    SetR c22_avx (El c_bucket 90);
    SetR c23_avx (El c_bucket 91);
    SetR c21_avx (Bin2 Sub (Bin2 Sub (El c_bucket 89) (Reg res_avx5)) (Reg res_avx7));
    SetR c24_avx (Bin2 Sub (Bin2 Sub (El c_bucket 92) (Reg c22_avx)) (Reg c23_avx));
    SetR c20_avx (Bin2 Sub (Bin2 Sub (El c_bucket 88) (Reg res_avx1)) (Reg res_avx3));
    SetR temp (Bin2 Sub (Bin2 Sub (El c_bucket 73) (Reg res_avx4)) (Reg res_avx6));
    SetR res_avx5 (Bin2 Add (Reg res_avx5) (Reg temp));
    SetR temp (Bin2 Sub (Bin2 Sub (El c_bucket 72) (Reg res_avx0)) (Reg res_avx2));
    SetR res_avx1 (Bin2 Add (Reg res_avx1) (Reg temp));
    SetR c22_avx (Bin2 Add (Reg c22_avx) (Reg c8_avx));
    SetR res_avx6 (Bin2 Add (Reg res_avx6) (Reg c21_avx));
    SetR res_avx2 (Bin2 Add (Reg res_avx2) (Reg c20_avx));
    SetR c7_avx (Bin2 Add (Reg c7_avx) (Reg c24_avx));
    SetR c6_avx (Bin2 Sub (Bin2 Sub (Reg c6_avx) (Reg res_avx0)) (Reg res_avx4));
    SetR c22_avx (Bin2 Sub (Bin2 Sub (Reg c22_avx) (Reg res_avx1)) (Reg res_avx5));
    SetR c7_avx (Bin2 Sub (Bin2 Sub (Reg c7_avx) (Reg res_avx2)) (Reg res_avx6));
    SetR c23_avx (Bin2 Sub (Bin2 Sub (Reg c23_avx) (Reg res_avx3)) (Reg res_avx7));
    SetE result_final4 0 (Reg res_avx0);
    SetE result_final4 1 (Reg res_avx1);
    SetE result_final4 2 (Bin2 Add (Reg res_avx2) (Reg c6_avx));
    SetE result_final4 3 (Bin2 Add (Reg res_avx3) (Reg c22_avx));
    SetE result_final4 4 (Bin2 Add (Reg res_avx4) (Reg c7_avx));
    SetE result_final4 5 (Bin2 Add (Reg res_avx5) (Reg c23_avx));
    SetE result_final4 6 (Reg res_avx6);
    SetE result_final4 7 (Reg res_avx7);
    SetR res_avx0 (El c_bucket 77);
    SetR res_avx2 (El c_bucket 78);
    SetR res_avx4 (El c_bucket 79);
    SetR res_avx6 (El c_bucket 96);
    SetR c6_avx (El c_bucket 99);
    SetR c7_avx (El c_bucket 100);
    SetR c8_avx (Bin2 Sub (Bin2 Sub (El c_bucket 101) (Reg c6_avx)) (Reg c7_avx));
    SetR res_avx1 (El c_bucket 93);
    SetR res_avx3 (El c_bucket 94);
    SetR res_avx5 (El c_bucket 95);
    SetR res_avx7 (El c_bucket 112);
    SetR c22_avx (El c_bucket 115);
    SetR c23_avx (El c_bucket 116);
    SetR c21_avx (Bin2 Sub (Bin2 Sub (El c_bucket 114) (Reg res_avx5)) (Reg res_avx7));
    SetR c24_avx (Bin2 Sub (Bin2 Sub (El c_bucket 117) (Reg c22_avx)) (Reg c23_avx));
    SetR c20_avx (Bin2 Sub (Bin2 Sub (El c_bucket 113) (Reg res_avx1)) (Reg res_avx3));
    SetR temp (Bin2 Sub (Bin2 Sub (El c_bucket 98) (Reg res_avx4)) (Reg res_avx6));
    SetR res_avx5 (Bin2 Add (Reg res_avx5) (Reg temp));
    SetR temp (Bin2 Sub (Bin2 Sub (El c_bucket 97) (Reg res_avx0)) (Reg res_avx2));
    SetR res_avx1 (Bin2 Add (Reg res_avx1) (Reg temp));
    SetR c22_avx (Bin2 Add (Reg c22_avx) (Reg c8_avx));
    SetR res_avx6 (Bin2 Add (Reg res_avx6) (Reg c21_avx));
    SetR res_avx2 (Bin2 Add (Reg res_avx2) (Reg c20_avx));
    SetR c7_avx (Bin2 Add (Reg c7_avx) (Reg c24_avx));
    SetR c6_avx (Bin2 Sub (Bin2 Sub (Reg c6_avx) (Reg res_avx0)) (Reg res_avx4));
    SetR c22_avx (Bin2 Sub (Bin2 Sub (Reg c22_avx) (Reg res_avx1)) (Reg res_avx5));
    SetR c7_avx (Bin2 Sub (Bin2 Sub (Reg c7_avx) (Reg res_avx2)) (Reg res_avx6));
    SetR c23_avx (Bin2 Sub (Bin2 Sub (Reg c23_avx) (Reg res_avx3)) (Reg res_avx7));
    SetE result_final5 0 (Reg res_avx0);
    SetE result_final5 1 (Reg res_avx1);
    SetE result_final5 2 (Bin2 Add (Reg res_avx2) (Reg c6_avx));
    SetE result_final5 3 (Bin2 Add (Reg res_avx3) (Reg c22_avx));
    SetE result_final5 4 (Bin2 Add (Reg res_avx4) (Reg c7_avx));
    SetE result_final5 5 (Bin2 Add (Reg res_avx5) (Reg c23_avx));
    SetE result_final5 6 (Reg res_avx6);
    SetE result_final5 7 (Reg res_avx7);
    SetR res_avx0 (El c_bucket 102);
    SetR res_avx2 (El c_bucket 103);
    SetR res_avx4 (El c_bucket 104);
    SetR res_avx6 (El c_bucket 105);
    SetR c6_avx (El c_bucket 108);
    SetR c7_avx (El c_bucket 109);
    SetR c8_avx (Bin2 Sub (Bin2 Sub (El c_bucket 110) (Reg c6_avx)) (Reg c7_avx));
    SetR res_avx1 (El c_bucket 118);
    SetR res_avx3 (El c_bucket 119);
    SetR res_avx5 (El c_bucket 120);
    SetR res_avx7 (El c_bucket 121);
    SetR c22_avx (El c_bucket 124);
    SetR c23_avx (El c_bucket 125);
    SetR c21_avx (Bin2 Sub (Bin2 Sub (El c_bucket 123) (Reg res_avx5)) (Reg res_avx7));
    SetR c24_avx (Bin2 Sub (Bin2 Sub (El c_bucket 126) (Reg c22_avx)) (Reg c23_avx));
    SetR c20_avx (Bin2 Sub (Bin2 Sub (El c_bucket 122) (Reg res_avx1)) (Reg res_avx3));
    SetR temp (Bin2 Sub (Bin2 Sub (El c_bucket 107) (Reg res_avx4)) (Reg res_avx6));
    SetR res_avx5 (Bin2 Add (Reg res_avx5) (Reg temp));
    SetR temp (Bin2 Sub (Bin2 Sub (El c_bucket 106) (Reg res_avx0)) (Reg res_avx2));
    SetR res_avx1 (Bin2 Add (Reg res_avx1) (Reg temp));
    SetR c22_avx (Bin2 Add (Reg c22_avx) (Reg c8_avx));
    SetR res_avx6 (Bin2 Add (Reg res_avx6) (Reg c21_avx));
    SetR res_avx2 (Bin2 Add (Reg res_avx2) (Reg c20_avx));
    SetR c7_avx (Bin2 Add (Reg c7_avx) (Reg c24_avx));
    SetR c6_avx (Bin2 Sub (Bin2 Sub (Reg c6_avx) (Reg res_avx0)) (Reg res_avx4));
    SetR c22_avx (Bin2 Sub (Bin2 Sub (Reg c22_avx) (Reg res_avx1)) (Reg res_avx5));
    SetR c7_avx (Bin2 Sub (Bin2 Sub (Reg c7_avx) (Reg res_avx2)) (Reg res_avx6));
    SetR c23_avx (Bin2 Sub (Bin2 Sub (Reg c23_avx) (Reg res_avx3)) (Reg res_avx7));
    SetE result_final6 0 (Reg res_avx0);
    SetE result_final6 1 (Reg res_avx1);
    SetE result_final6 2 (Bin2 Add (Reg res_avx2) (Reg c6_avx));
    SetE result_final6 3 (Bin2 Add (Reg res_avx3) (Reg c22_avx));
    SetE result_final6 4 (Bin2 Add (Reg res_avx4) (Reg c7_avx));
    SetE result_final6 5 (Bin2 Add (Reg res_avx5) (Reg c23_avx));
    SetE result_final6 6 (Reg res_avx6);
    SetE result_final6 7 (Reg res_avx7)].
End KARA_interpol.

Section toom_eval.
Local Notation a_avx := 0. Local Notation aw_avx := 1.
Local Notation r0_avx := 0. Local Notation r1_avx := 1. Local Notation r2_avx := 2. Local Notation r3_avx := 3. Local Notation r4_avx := 4. Local Notation r5_avx := 5. Local Notation r6_avx := 6.
(** polymul/toom-cook_4way.c:844-866, with the loop variable i. *)
Definition toom_eval_code (i : Z) : list vstmt := [
    SetR r0_avx (El a_avx i);
    SetR r1_avx (El a_avx (4 + i));
    SetR r2_avx (El a_avx (8 + i));
    SetR r3_avx (El a_avx (12 + i));
    SetR r4_avx (Bin2 Add (Reg r0_avx) (Reg r2_avx));
    SetR r5_avx (Bin2 Add (Reg r1_avx) (Reg r3_avx));
    SetE aw_avx (8 + i) (Bin2 Add (Reg r4_avx) (Reg r5_avx));
    SetE aw_avx (12 + i) (Bin2 Sub (Reg r4_avx) (Reg r5_avx));
    SetR r4_avx (Sll (Reg r0_avx) 2);
    SetR r4_avx (Bin2 Add (Reg r4_avx) (Reg r2_avx));
    SetR r4_avx (Sll (Reg r4_avx) 1);
    SetR r5_avx (Sll (Reg r1_avx) 2);
    SetR r5_avx (Bin2 Add (Reg r5_avx) (Reg r3_avx));
    SetE aw_avx (16 + i) (Bin2 Add (Reg r4_avx) (Reg r5_avx));
    SetE aw_avx (20 + i) (Bin2 Sub (Reg r4_avx) (Reg r5_avx));
    SetR r4_avx (Sll (Reg r3_avx) 3);
    SetR r6_avx (Sll (Reg r2_avx) 2);
    SetR r4_avx (Bin2 Add (Reg r4_avx) (Reg r6_avx));
    SetR r6_avx (Sll (Reg r1_avx) 1);
    SetR r4_avx (Bin2 Add (Reg r4_avx) (Reg r6_avx));
    SetE aw_avx (4 + i) (Bin2 Add (Reg r4_avx) (Reg r0_avx));
    SetE aw_avx (24 + i) (Reg r0_avx);
    SetE aw_avx i (Reg r3_avx)].
End toom_eval.

Section TC_eval.
Local Notation b_avx := 0. Local Notation bw_avx := 1.
Local Notation r0_avx := 0. Local Notation r1_avx := 1. Local Notation r2_avx := 2. Local Notation r3_avx := 3. Local Notation r4_avx := 4. Local Notation r5_avx := 5. Local Notation r6_avx := 6.
(** polymul/toom-cook_4way.c:886-908, with the loop variable i. *)
Definition TC_eval_code (i : Z) : list vstmt := [
    SetR r0_avx (El b_avx i);
    SetR r1_avx (El b_avx (4 + i));
    SetR r2_avx (El b_avx (8 + i));
    SetR r3_avx (El b_avx (12 + i));
    SetR r4_avx (Bin2 Add (Reg r0_avx) (Reg r2_avx));
    SetR r5_avx (Bin2 Add (Reg r1_avx) (Reg r3_avx));
    SetE bw_avx (8 + i) (Bin2 Add (Reg r4_avx) (Reg r5_avx));
    SetE bw_avx (12 + i) (Bin2 Sub (Reg r4_avx) (Reg r5_avx));
    SetR r4_avx (Sll (Reg r0_avx) 2);
    SetR r4_avx (Bin2 Add (Reg r4_avx) (Reg r2_avx));
    SetR r4_avx (Sll (Reg r4_avx) 1);
    SetR r5_avx (Sll (Reg r1_avx) 2);
    SetR r5_avx (Bin2 Add (Reg r5_avx) (Reg r3_avx));
    SetE bw_avx (16 + i) (Bin2 Add (Reg r4_avx) (Reg r5_avx));
    SetE bw_avx (20 + i) (Bin2 Sub (Reg r4_avx) (Reg r5_avx));
    SetR r4_avx (Sll (Reg r3_avx) 3);
    SetR r6_avx (Sll (Reg r2_avx) 2);
    SetR r4_avx (Bin2 Add (Reg r4_avx) (Reg r6_avx));
    SetR r6_avx (Sll (Reg r1_avx) 1);
    SetR r4_avx (Bin2 Add (Reg r4_avx) (Reg r6_avx));
    SetE bw_avx (4 + i) (Bin2 Add (Reg r4_avx) (Reg r0_avx));
    SetE bw_avx (24 + i) (Reg r0_avx);
    SetE bw_avx i (Reg r3_avx)].
End TC_eval.

Section TC_interpol.
Local Notation w1_avx := 0. Local Notation w2_avx := 1. Local Notation w3_avx := 2. Local Notation w4_avx := 3. Local Notation w5_avx := 4. Local Notation w6_avx := 5. Local Notation w7_avx := 6. Local Notation res_avx_output := 7. Local Notation globals := 8.
Local Notation r0_avx := 0. Local Notation r1_avx := 1. Local Notation r2_avx := 2. Local Notation r3_avx := 3. Local Notation r4_avx := 4. Local Notation r5_avx := 5. Local Notation r6_avx := 6. Local Notation temp_avx := 7.
(** polymul/toom-cook_4way.c:946-987, with the loop variable i. *)
Definition TC_interpol_code (i : Z) : list vstmt := [
    SetR r0_avx (El w1_avx i);
    SetR r1_avx (El w2_avx i);
    SetR r2_avx (El w3_avx i);
    SetR r3_avx (El w4_avx i);
    SetR r4_avx (El w5_avx i);
    SetR r5_avx (El w6_avx i);
    SetR r6_avx (El w7_avx i);
    SetR r1_avx (Bin2 Add (Reg r1_avx) (Reg r4_avx));
    SetR r5_avx (Bin2 Sub (Reg r5_avx) (Reg r4_avx));
    SetR r3_avx (Bin2 Sub (Reg r3_avx) (Reg r2_avx));
    SetR r3_avx (Srl (Reg r3_avx) 1);
    SetR r4_avx (Bin2 Sub (Reg r4_avx) (Reg r0_avx));
    SetR temp_avx (Sll (Reg r6_avx) 6);
    SetR r4_avx (Bin2 Sub (Reg r4_avx) (Reg temp_avx));
    SetR r4_avx (Sll (Reg r4_avx) 1);
    SetR r4_avx (Bin2 Add (Reg r4_avx) (Reg r5_avx));
    SetR r2_avx (Bin2 Add (Reg r2_avx) (Reg r3_avx));
    SetR temp_avx (Sll (Reg r2_avx) 6);
    SetR r1_avx (Bin2 Sub (Reg r1_avx) (Reg temp_avx));
    SetR r1_avx (Bin2 Sub (Reg r1_avx) (Reg r2_avx));
    SetR r2_avx (Bin2 Sub (Reg r2_avx) (Reg r6_avx));
    SetR r2_avx (Bin2 Sub (Reg r2_avx) (Reg r0_avx));
    SetR temp_avx (Bin2 Mul (Reg r2_avx) (El globals int45_avx));
    SetR r1_avx (Bin2 Add (Reg r1_avx) (Reg temp_avx));
    SetR temp_avx (Sll (Reg r2_avx) 3);
    SetR r4_avx (Bin2 Sub (Reg r4_avx) (Reg temp_avx));
    SetR r4_avx (Bin2 Mul (Reg r4_avx) (El globals inv3_avx));
    SetR r4_avx (Srl (Reg r4_avx) 3);
    SetR r5_avx (Bin2 Add (Reg r5_avx) (Reg r1_avx));
    SetR temp_avx (Sll (Reg r3_avx) 4);
    SetR r1_avx (Bin2 Add (Reg r1_avx) (Reg temp_avx));
    SetR r1_avx (Bin2 Mul (Reg r1_avx) (El globals inv9_avx));
    SetR r1_avx (Srl (Reg r1_avx) 1);
    SetR r3_avx (Bin2 Add (Reg r1_avx) (Reg r3_avx));
    SetR r3_avx (Bin2 Sub (El globals int0_avx) (Reg r3_avx));
    SetR temp_avx (Bin2 Mul (Reg r1_avx) (El globals int30_avx));
    SetR temp_avx (Bin2 Sub (Reg temp_avx) (Reg r5_avx));
    SetR temp_avx (Bin2 Mul (Reg temp_avx) (El globals inv15_avx));
    SetR r5_avx (Srl (Reg temp_avx) 2);
    SetR r2_avx (Bin2 Sub (Reg r2_avx) (Reg r4_avx));
    SetR r1_avx (Bin2 Sub (Reg r1_avx) (Reg r5_avx))].
(** polymul/toom-cook_4way.c:989-995, with the loop variable i. *)
Definition TC_interpol_then_code (i : Z) : list vstmt := [
    SetE res_avx_output i (Reg r6_avx);
    SetE res_avx_output (4 + i) (Reg r5_avx);
    SetE res_avx_output (8 + i) (Reg r4_avx);
    SetE res_avx_output (12 + i) (Reg r3_avx);
    SetE res_avx_output (16 + i) (Reg r2_avx);
    SetE res_avx_output (20 + i) (Reg r1_avx);
    SetE res_avx_output (24 + i) (Reg r0_avx)].
(** polymul/toom-cook_4way.c:998-1004, with the loop variable i. *)
Definition TC_interpol_else_code (i : Z) : list vstmt := [
    SetE res_avx_output i (Bin2 Add (El res_avx_output i) (Reg r6_avx));
    SetE res_avx_output (4 + i) (Bin2 Add (El res_avx_output (4 + i)) (Reg r5_avx));
    SetE res_avx_output (8 + i) (Bin2 Add (El res_avx_output (8 + i)) (Reg r4_avx));
    SetE res_avx_output (12 + i) (Bin2 Add (El res_avx_output (12 + i)) (Reg r3_avx));
    SetE res_avx_output (16 + i) (Bin2 Add (El res_avx_output (16 + i)) (Reg r2_avx));
    SetE res_avx_output (20 + i) (Bin2 Add (El res_avx_output (20 + i)) (Reg r1_avx));
    SetE res_avx_output (24 + i) (Reg r0_avx)].
End TC_interpol.

Section TC_reduce.
Local Notation res_avx_output := 0. Local Notation res_avx := 1.

(** polymul/toom-cook_4way.c:1013-1013, with the loop variable i. *)
Definition TC_reduce_code (i : Z) : list vstmt := [
    SetE res_avx i (Bin2 Sub (El res_avx_output i) (El res_avx_output (16 + i)))].
End TC_reduce.
