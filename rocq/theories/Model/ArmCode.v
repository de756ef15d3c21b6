(** The assembly multipliers of the Cortex-M4 code, transcribed instruction by instruction from
    Cortex-M_Implementation_KEM/Cortex-M4/src/saber/m4-tc4kara/{mult_toom4_256_16.s,asm_funcs.S} and
    m4-striding/kara.s (the files of lightsaber and firesaber are identical).

    [lsl], [lsr], [movw] are moves with a shifted or immediate operand, [stmdb sp!], [push] and [ldmia sp!], [pop] the same
    instruction; registers are written by number (ip = R12, sl = R10, fp = R11); [it ls] is a prefix of the next
    instruction. *)
From Coq Require Import ZArith List.
From Verif Require Import Model.Arm.
Import ListNotations.
Local Open Scope Z_scope.

(** mult_toom4_256_16.s:10-298. *)
Definition schoolbook_16x16 : list stmt := [
  I (PUSH [LR]); I (LDR R6 (Off R1 0)); I (LDR R12 (Off R1 4)); I (LDR R3 (Off R1 8));
  I (LDR R10 (Off R1 12)); I (LDR R7 (Off R2 0)); I (LDR R8 (Off R2 4)); I (LDR R4 (Off R2 8));
  I (LDR LR (Off R2 12)); I (SMUL false false R9 R7 R6); I (SMUAD true R11 R7 R6); I (PKHBT R9 R9 R11 16);
  I (STR R9 (Off R0 0)); I (SMUAD true R11 R7 R12); I (SMUL false false R5 R7 R12); I (PKHBT R9 R8 R7 0);
  I (SMLAD true R11 R8 R6 R11); I (SMLAD false R5 R9 R6 R5); I (PKHBT R11 R5 R11 16); I (STR R11 (Off R0 4));
  I (SMUL false false R5 R3 R7); I (SMUAD true R11 R3 R7); I (SMLAD false R5 R9 R12 R5); I (PKHBT R9 R4 R8 0);
  I (SMLAD false R5 R9 R6 R5); I (SMLAD true R11 R8 R12 R11); I (SMLAD true R11 R4 R6 R11); I (PKHBT R11 R5 R11 16);
  I (STR R11 (Off R0 8)); I (SMUL false false R5 R10 R7); I (SMUAD true R11 R10 R7); I (SMLAD false R5 R12 R9 R5);
  I (PKHBT R9 R8 R7 0); I (SMLAD false R5 R3 R9 R5); I (PKHBT R9 LR R4 0); I (SMLAD false R5 R6 R9 R5);
  I (SMLAD true R11 R3 R8 R11); I (SMLAD true R11 R12 R4 R11); I (SMLAD true R11 R6 LR R11); I (PKHBT R11 R5 R11 16);
  I (STR R11 (Off R0 12)); I (SMUL true true R5 R6 LR); I (SMUAD true R11 R10 R8); I (SMLAD false R5 R12 R9 R5);
  I (PKHBT R9 R8 R7 0); I (SMLAD false R5 R10 R9 R5); I (PKHBT R9 R4 R8 0); I (SMLAD false R5 R3 R9 R5);
  I (SMLAD true R11 R3 R4 R11); I (SMLAD true R11 R12 LR R11); I (PKHBT R11 R5 R11 16); I (STR R11 (Off R0 16));
  I (SMUL true true R5 R12 LR); I (SMUAD true R11 R10 R4); I (SMLAD false R5 R10 R9 R5); I (PKHBT R9 LR R4 0);
  I (SMLAD false R5 R3 R9 R5); I (SMLAD true R11 R3 LR R11); I (PKHBT R11 R5 R11 16); I (STR R11 (Off R0 20));
  I (SMUAD false R5 R10 R9); I (SMUAD true R11 R10 LR); I (SMLA true true R5 R3 LR R5); I (PKHBT R11 R5 R11 16);
  I (STR R11 (Off R0 24)); I (SMUL true true R11 R10 LR); I (MOVT R11 0); I (STR R11 (Off R0 28));
  I (LDR R7 (Off R2 16)); I (LDR R8 (Off R2 20)); I (LDR R4 (Off R2 24)); I (LDR LR (Off R2 28));
  I (LDR R9 (Off R0 16)); I (LDR R5 (Off R0 20)); I (MOV R11 (Lsr R9 16)); I (SMLA false false R9 R7 R6 R9);
  I (SMLAD true R11 R7 R6 R11); I (PKHBT R9 R9 R11 16); I (STR R9 (Off R0 16)); I (MOV R11 (Lsr R5 16));
  I (SMLAD true R11 R7 R12 R11); I (SMLA false false R5 R7 R12 R5); I (PKHBT R9 R8 R7 0); I (SMLAD true R11 R8 R6 R11);
  I (SMLAD false R5 R9 R6 R5); I (PKHBT R11 R5 R11 16); I (LDR R5 (Off R0 24)); I (STR R11 (Off R0 20));
  I (MOV R11 (Lsr R5 16)); I (SMLA false false R5 R3 R7 R5); I (SMLAD true R11 R3 R7 R11); I (SMLAD false R5 R9 R12 R5);
  I (PKHBT R9 R4 R8 0); I (SMLAD false R5 R9 R6 R5); I (SMLAD true R11 R8 R12 R11); I (SMLAD true R11 R4 R6 R11);
  I (PKHBT R11 R5 R11 16); I (LDR R5 (Off R0 28)); I (STR R11 (Off R0 24)); I (MOV R11 (Lsr R5 16));
  I (SMLA false false R5 R10 R7 R5); I (SMLAD true R11 R10 R7 R11); I (SMLAD false R5 R12 R9 R5); I (PKHBT R9 R8 R7 0);
  I (SMLAD false R5 R3 R9 R5); I (PKHBT R9 LR R4 0); I (SMLAD false R5 R6 R9 R5); I (SMLAD true R11 R3 R8 R11);
  I (SMLAD true R11 R12 R4 R11); I (SMLAD true R11 R6 LR R11); I (PKHBT R11 R5 R11 16); I (STR R11 (Off R0 28));
  I (SMUL true true R5 R6 LR); I (SMUAD true R11 R10 R8); I (SMLAD false R5 R12 R9 R5); I (PKHBT R9 R8 R7 0);
  I (SMLAD false R5 R10 R9 R5); I (PKHBT R9 R4 R8 0); I (SMLAD false R5 R3 R9 R5); I (SMLAD true R11 R3 R4 R11);
  I (SMLAD true R11 R12 LR R11); I (PKHBT R11 R5 R11 16); I (STR R11 (Off R0 32)); I (SMUL true true R5 R12 LR);
  I (SMUAD true R11 R10 R4); I (SMLAD false R5 R10 R9 R5); I (PKHBT R9 LR R4 0); I (SMLAD false R5 R3 R9 R5);
  I (SMLAD true R11 R3 LR R11); I (PKHBT R11 R5 R11 16); I (STR R11 (Off R0 36)); I (SMUAD false R5 R10 R9);
  I (SMUAD true R11 R10 LR); I (SMLA true true R5 R3 LR R5); I (PKHBT R11 R5 R11 16); I (STR R11 (Off R0 40));
  I (SMUL true true R11 R10 LR); I (MOVT R11 0); I (STR R11 (Off R0 44)); I (LDR R6 (Off R1 16));
  I (LDR R12 (Off R1 20)); I (LDR R3 (Off R1 24)); I (LDR R10 (Off R1 28)); I (LDR R9 (Off R0 32));
  I (LDR R5 (Off R0 36)); I (MOV R11 (Lsr R9 16)); I (SMLA false false R9 R7 R6 R9); I (SMLAD true R11 R7 R6 R11);
  I (PKHBT R9 R9 R11 16); I (STR R9 (Off R0 32)); I (MOV R11 (Lsr R5 16)); I (SMLAD true R11 R7 R12 R11);
  I (SMLA false false R5 R7 R12 R5); I (PKHBT R9 R8 R7 0); I (SMLAD true R11 R8 R6 R11); I (SMLAD false R5 R9 R6 R5);
  I (PKHBT R11 R5 R11 16); I (LDR R5 (Off R0 40)); I (STR R11 (Off R0 36)); I (MOV R11 (Lsr R5 16));
  I (SMLA false false R5 R3 R7 R5); I (SMLAD true R11 R3 R7 R11); I (SMLAD false R5 R9 R12 R5); I (PKHBT R9 R4 R8 0);
  I (SMLAD false R5 R9 R6 R5); I (SMLAD true R11 R8 R12 R11); I (SMLAD true R11 R4 R6 R11); I (PKHBT R11 R5 R11 16);
  I (LDR R5 (Off R0 44)); I (STR R11 (Off R0 40)); I (MOV R11 (Lsr R5 16)); I (SMLA false false R5 R10 R7 R5);
  I (SMLAD true R11 R10 R7 R11); I (SMLAD false R5 R12 R9 R5); I (PKHBT R9 R8 R7 0); I (SMLAD false R5 R3 R9 R5);
  I (PKHBT R9 LR R4 0); I (SMLAD false R5 R6 R9 R5); I (SMLAD true R11 R3 R8 R11); I (SMLAD true R11 R12 R4 R11);
  I (SMLAD true R11 R6 LR R11); I (PKHBT R11 R5 R11 16); I (STR R11 (Off R0 44)); I (SMUL true true R5 R6 LR);
  I (SMUAD true R11 R10 R8); I (SMLAD false R5 R12 R9 R5); I (PKHBT R9 R8 R7 0); I (SMLAD false R5 R10 R9 R5);
  I (PKHBT R9 R4 R8 0); I (SMLAD false R5 R3 R9 R5); I (SMLAD true R11 R3 R4 R11); I (SMLAD true R11 R12 LR R11);
  I (PKHBT R11 R5 R11 16); I (STR R11 (Off R0 48)); I (SMUL true true R5 R12 LR); I (SMUAD true R11 R10 R4);
  I (SMLAD false R5 R10 R9 R5); I (PKHBT R9 LR R4 0); I (SMLAD false R5 R3 R9 R5); I (SMLAD true R11 R3 LR R11);
  I (PKHBT R11 R5 R11 16); I (STR R11 (Off R0 52)); I (SMUAD false R5 R10 R9); I (SMUAD true R11 R10 LR);
  I (SMLA true true R5 R3 LR R5); I (PKHBT R11 R5 R11 16); I (STR R11 (Off R0 56)); I (SMUL true true R11 R10 LR);
  I (STRH R11 (Off R0 60)); I (LDR R7 (Off R2 0)); I (LDR R8 (Off R2 4)); I (LDR R4 (Off R2 8));
  I (LDR LR (Off R2 12)); I (LDR R9 (Off R0 16)); I (LDR R5 (Off R0 20)); I (MOV R11 (Lsr R9 16));
  I (SMLA false false R9 R7 R6 R9); I (SMLAD true R11 R7 R6 R11); I (PKHBT R9 R9 R11 16); I (STR R9 (Off R0 16));
  I (MOV R11 (Lsr R5 16)); I (SMLAD true R11 R7 R12 R11); I (SMLA false false R5 R7 R12 R5); I (PKHBT R9 R8 R7 0);
  I (SMLAD true R11 R8 R6 R11); I (SMLAD false R5 R9 R6 R5); I (PKHBT R11 R5 R11 16); I (LDR R5 (Off R0 24));
  I (STR R11 (Off R0 20)); I (MOV R11 (Lsr R5 16)); I (SMLA false false R5 R3 R7 R5); I (SMLAD true R11 R3 R7 R11);
  I (SMLAD false R5 R9 R12 R5); I (PKHBT R9 R4 R8 0); I (SMLAD false R5 R9 R6 R5); I (SMLAD true R11 R8 R12 R11);
  I (SMLAD true R11 R4 R6 R11); I (PKHBT R11 R5 R11 16); I (LDR R5 (Off R0 28)); I (STR R11 (Off R0 24));
  I (MOV R11 (Lsr R5 16)); I (SMLA false false R5 R10 R7 R5); I (SMLAD true R11 R10 R7 R11); I (SMLAD false R5 R12 R9 R5);
  I (PKHBT R9 R8 R7 0); I (SMLAD false R5 R3 R9 R5); I (PKHBT R9 LR R4 0); I (SMLAD false R5 R6 R9 R5);
  I (SMLAD true R11 R3 R8 R11); I (SMLAD true R11 R12 R4 R11); I (SMLAD true R11 R6 LR R11); I (PKHBT R11 R5 R11 16);
  I (LDR R5 (Off R0 32)); I (STR R11 (Off R0 28)); I (MOV R11 (Lsr R5 16)); I (SMLA true true R5 R6 LR R5);
  I (SMLAD true R11 R10 R8 R11); I (SMLAD false R5 R12 R9 R5); I (PKHBT R9 R8 R7 0); I (SMLAD false R5 R10 R9 R5);
  I (PKHBT R9 R4 R8 0); I (SMLAD false R5 R3 R9 R5); I (SMLAD true R11 R3 R4 R11); I (SMLAD true R11 R12 LR R11);
  I (PKHBT R11 R5 R11 16); I (LDR R5 (Off R0 36)); I (STR R11 (Off R0 32)); I (MOV R11 (Lsr R5 16));
  I (SMLA true true R5 R12 LR R5); I (SMLAD true R11 R10 R4 R11); I (SMLAD false R5 R10 R9 R5); I (PKHBT R9 LR R4 0);
  I (SMLAD false R5 R3 R9 R5); I (SMLAD true R11 R3 LR R11); I (PKHBT R11 R5 R11 16); I (LDR R5 (Off R0 40));
  I (STR R11 (Off R0 36)); I (MOV R11 (Lsr R5 16)); I (SMLAD false R5 R10 R9 R5); I (SMLAD true R11 R10 LR R11);
  I (SMLA true true R5 R3 LR R5); I (PKHBT R11 R5 R11 16); I (LDRH R5 (Off R0 44)); I (STR R11 (Off R0 40));
  I (SMLA true true R11 R10 LR R5); I (STRH R11 (Off R0 44)); I (LDR LR (Post SP 4)); I (BX LR) ].

(** mult_toom4_256_16.s:302-1246. *)
Definition karatsuba_64x64 : list stmt := [
  I (PUSH [LR]);
  Call schoolbook_16x16;
  I (PUSH [R1]); I (PUSH [R2]); I (PUSH [R0]); I (ADD R1 R1 (Imm 32));
  I (ADD R2 R2 (Imm 32)); I (ADD R0 R0 (Imm 64));
  Call schoolbook_16x16;
  I (SUB R1 R1 (Imm 32)); I (SUB R2 R2 (Imm 32)); I (SUB SP SP (Imm 128)); I (LDR R3 (Off R1 0));
  I (LDR R4 (Off R1 32)); I (LDR R5 (Off R1 4)); I (LDR R6 (Off R1 36)); I (LDR R7 (Off R1 8));
  I (LDR R8 (Off R1 40)); I (LDR R9 (Off R1 12)); I (LDR R10 (Off R1 44)); I (LDR R11 (Off R1 16));
  I (LDR R12 (Off R1 48)); I (LDR R0 (Off R1 20)); I (LDR LR (Off R1 52)); I (UADD16 R3 R3 R4);
  I (UADD16 R5 R5 R6); I (UADD16 R7 R7 R8); I (UADD16 R9 R9 R10); I (UADD16 R11 R11 R12);
  I (UADD16 R0 R0 LR); I (STR R3 (Off SP 0)); I (STR R5 (Off SP 4)); I (STR R7 (Off SP 8));
  I (STR R9 (Off SP 12)); I (STR R11 (Off SP 16)); I (STR R0 (Off SP 20)); I (LDR R3 (Off R1 24));
  I (LDR R4 (Off R1 56)); I (LDR R5 (Off R1 28)); I (LDR R6 (Off R1 60)); I (UADD16 R3 R3 R4);
  I (UADD16 R5 R5 R6); I (STR R3 (Off SP 24)); I (STR R5 (Off SP 28)); I (MOV R1 (Rg SP));
  I (LDR R3 (Off R2 0)); I (LDR R4 (Off R2 32)); I (LDR R5 (Off R2 4)); I (LDR R6 (Off R2 36));
  I (LDR R7 (Off R2 8)); I (LDR R8 (Off R2 40)); I (LDR R9 (Off R2 12)); I (LDR R10 (Off R2 44));
  I (LDR R11 (Off R2 16)); I (LDR R12 (Off R2 48)); I (LDR R0 (Off R2 20)); I (LDR LR (Off R2 52));
  I (UADD16 R3 R3 R4); I (UADD16 R5 R5 R6); I (UADD16 R7 R7 R8); I (UADD16 R9 R9 R10);
  I (UADD16 R11 R11 R12); I (UADD16 R0 R0 LR); I (STR R3 (Off SP 32)); I (STR R5 (Off SP 36));
  I (STR R7 (Off SP 40)); I (STR R9 (Off SP 44)); I (STR R11 (Off SP 48)); I (STR R0 (Off SP 52));
  I (LDR R3 (Off R2 24)); I (LDR R4 (Off R2 56)); I (LDR R5 (Off R2 28)); I (LDR R6 (Off R2 60));
  I (UADD16 R3 R3 R4); I (UADD16 R5 R5 R6); I (STR R3 (Off SP 56)); I (STR R5 (Off SP 60));
  I (ADD R2 SP (Imm 32)); I (ADD R0 SP (Imm 64));
  Call schoolbook_16x16;
  I (MOV R3 (Rg R0)); I (LDR R0 (Off SP 128)); I (LDR R5 (Off R3 0)); I (LDR R6 (Off R3 32));
  I (LDR R7 (Off R0 0)); I (LDR R8 (Off R0 32)); I (LDR R9 (Off R0 64)); I (LDR R10 (Off R0 96));
  I (USUB16 R11 R5 R7); I (USUB16 R8 R8 R9); I (UADD16 R11 R11 R8); I (STR R11 (Off R0 32));
  I (USUB16 R6 R6 R8); I (USUB16 R6 R6 R10); I (STR R6 (Off R0 64)); I (LDR R5 (Off R3 4));
  I (LDR R6 (Off R3 36)); I (LDR R7 (Off R0 4)); I (LDR R8 (Off R0 36)); I (LDR R9 (Off R0 68));
  I (LDR R10 (Off R0 100)); I (USUB16 R11 R5 R7); I (USUB16 R8 R8 R9); I (UADD16 R11 R11 R8);
  I (STR R11 (Off R0 36)); I (USUB16 R6 R6 R8); I (USUB16 R6 R6 R10); I (STR R6 (Off R0 68));
  I (LDR R5 (Off R3 8)); I (LDR R6 (Off R3 40)); I (LDR R7 (Off R0 8)); I (LDR R8 (Off R0 40));
  I (LDR R9 (Off R0 72)); I (LDR R10 (Off R0 104)); I (USUB16 R11 R5 R7); I (USUB16 R8 R8 R9);
  I (UADD16 R11 R11 R8); I (STR R11 (Off R0 40)); I (USUB16 R6 R6 R8); I (USUB16 R6 R6 R10);
  I (STR R6 (Off R0 72)); I (LDR R5 (Off R3 12)); I (LDR R6 (Off R3 44)); I (LDR R7 (Off R0 12));
  I (LDR R8 (Off R0 44)); I (LDR R9 (Off R0 76)); I (LDR R10 (Off R0 108)); I (USUB16 R11 R5 R7);
  I (USUB16 R8 R8 R9); I (UADD16 R11 R11 R8); I (STR R11 (Off R0 44)); I (USUB16 R6 R6 R8);
  I (USUB16 R6 R6 R10); I (STR R6 (Off R0 76)); I (LDR R5 (Off R3 16)); I (LDR R6 (Off R3 48));
  I (LDR R7 (Off R0 16)); I (LDR R8 (Off R0 48)); I (LDR R9 (Off R0 80)); I (LDR R10 (Off R0 112));
  I (USUB16 R11 R5 R7); I (USUB16 R8 R8 R9); I (UADD16 R11 R11 R8); I (STR R11 (Off R0 48));
  I (USUB16 R6 R6 R8); I (USUB16 R6 R6 R10); I (STR R6 (Off R0 80)); I (LDR R5 (Off R3 20));
  I (LDR R6 (Off R3 52)); I (LDR R7 (Off R0 20)); I (LDR R8 (Off R0 52)); I (LDR R9 (Off R0 84));
  I (LDR R10 (Off R0 116)); I (USUB16 R11 R5 R7); I (USUB16 R8 R8 R9); I (UADD16 R11 R11 R8);
  I (STR R11 (Off R0 52)); I (USUB16 R6 R6 R8); I (USUB16 R6 R6 R10); I (STR R6 (Off R0 84));
  I (LDR R5 (Off R3 24)); I (LDR R6 (Off R3 56)); I (LDR R7 (Off R0 24)); I (LDR R8 (Off R0 56));
  I (LDR R9 (Off R0 88)); I (LDR R10 (Off R0 120)); I (USUB16 R11 R5 R7); I (USUB16 R8 R8 R9);
  I (UADD16 R11 R11 R8); I (STR R11 (Off R0 56)); I (USUB16 R6 R6 R8); I (USUB16 R6 R6 R10);
  I (STR R6 (Off R0 88)); I (LDRH R5 (Off R3 28)); I (LDRH R6 (Off R3 60)); I (LDRH R7 (Off R0 28));
  I (LDRH R8 (Off R0 60)); I (LDRH R9 (Off R0 92)); I (LDRH R10 (Off R0 124)); I (SUB R11 R5 (Rg R7));
  I (SUB R8 R8 (Rg R9)); I (ADD R11 R11 (Rg R8)); I (STRH R11 (Off R0 60)); I (SUB R6 R6 (Rg R8));
  I (SUB R6 R6 (Rg R10)); I (STRH R6 (Off R0 92)); I (LDRH R5 (Off R3 30)); I (LDRH R7 (Off R0 30));
  I (LDRH R9 (Off R0 94)); I (SUB R11 R5 (Rg R7)); I (SUB R11 R11 (Rg R9)); I (STRH R11 (Off R0 62));
  I (ADD SP SP (Imm 132)); I (POP [R2]); I (POP [R1]); I (PUSH [R1]);
  I (PUSH [R2]); I (PUSH [R0]); I (ADD R1 R1 (Imm 64)); I (ADD R2 R2 (Imm 64));
  I (ADD R0 R0 (Imm 128));
  Call schoolbook_16x16;
  I (PUSH [R1]); I (PUSH [R2]); I (PUSH [R0]); I (ADD R1 R1 (Imm 32));
  I (ADD R2 R2 (Imm 32)); I (ADD R0 R0 (Imm 64));
  Call schoolbook_16x16;
  I (SUB R1 R1 (Imm 32)); I (SUB R2 R2 (Imm 32)); I (SUB SP SP (Imm 128)); I (LDR R3 (Off R1 0));
  I (LDR R4 (Off R1 32)); I (LDR R5 (Off R1 4)); I (LDR R6 (Off R1 36)); I (LDR R7 (Off R1 8));
  I (LDR R8 (Off R1 40)); I (LDR R9 (Off R1 12)); I (LDR R10 (Off R1 44)); I (LDR R11 (Off R1 16));
  I (LDR R12 (Off R1 48)); I (LDR R0 (Off R1 20)); I (LDR LR (Off R1 52)); I (UADD16 R3 R3 R4);
  I (UADD16 R5 R5 R6); I (UADD16 R7 R7 R8); I (UADD16 R9 R9 R10); I (UADD16 R11 R11 R12);
  I (UADD16 R0 R0 LR); I (STR R3 (Off SP 0)); I (STR R5 (Off SP 4)); I (STR R7 (Off SP 8));
  I (STR R9 (Off SP 12)); I (STR R11 (Off SP 16)); I (STR R0 (Off SP 20)); I (LDR R3 (Off R1 24));
  I (LDR R4 (Off R1 56)); I (LDR R5 (Off R1 28)); I (LDR R6 (Off R1 60)); I (UADD16 R3 R3 R4);
  I (UADD16 R5 R5 R6); I (STR R3 (Off SP 24)); I (STR R5 (Off SP 28)); I (MOV R1 (Rg SP));
  I (LDR R3 (Off R2 0)); I (LDR R4 (Off R2 32)); I (LDR R5 (Off R2 4)); I (LDR R6 (Off R2 36));
  I (LDR R7 (Off R2 8)); I (LDR R8 (Off R2 40)); I (LDR R9 (Off R2 12)); I (LDR R10 (Off R2 44));
  I (LDR R11 (Off R2 16)); I (LDR R12 (Off R2 48)); I (LDR R0 (Off R2 20)); I (LDR LR (Off R2 52));
  I (UADD16 R3 R3 R4); I (UADD16 R5 R5 R6); I (UADD16 R7 R7 R8); I (UADD16 R9 R9 R10);
  I (UADD16 R11 R11 R12); I (UADD16 R0 R0 LR); I (STR R3 (Off SP 32)); I (STR R5 (Off SP 36));
  I (STR R7 (Off SP 40)); I (STR R9 (Off SP 44)); I (STR R11 (Off SP 48)); I (STR R0 (Off SP 52));
  I (LDR R3 (Off R2 24)); I (LDR R4 (Off R2 56)); I (LDR R5 (Off R2 28)); I (LDR R6 (Off R2 60));
  I (UADD16 R3 R3 R4); I (UADD16 R5 R5 R6); I (STR R3 (Off SP 56)); I (STR R5 (Off SP 60));
  I (ADD R2 SP (Imm 32)); I (ADD R0 SP (Imm 64));
  Call schoolbook_16x16;
  I (MOV R3 (Rg R0)); I (LDR R0 (Off SP 128)); I (LDR R5 (Off R3 0)); I (LDR R6 (Off R3 32));
  I (LDR R7 (Off R0 0)); I (LDR R8 (Off R0 32)); I (LDR R9 (Off R0 64)); I (LDR R10 (Off R0 96));
  I (USUB16 R11 R5 R7); I (USUB16 R8 R8 R9); I (UADD16 R11 R11 R8); I (STR R11 (Off R0 32));
  I (USUB16 R6 R6 R8); I (USUB16 R6 R6 R10); I (STR R6 (Off R0 64)); I (LDR R5 (Off R3 4));
  I (LDR R6 (Off R3 36)); I (LDR R7 (Off R0 4)); I (LDR R8 (Off R0 36)); I (LDR R9 (Off R0 68));
  I (LDR R10 (Off R0 100)); I (USUB16 R11 R5 R7); I (USUB16 R8 R8 R9); I (UADD16 R11 R11 R8);
  I (STR R11 (Off R0 36)); I (USUB16 R6 R6 R8); I (USUB16 R6 R6 R10); I (STR R6 (Off R0 68));
  I (LDR R5 (Off R3 8)); I (LDR R6 (Off R3 40)); I (LDR R7 (Off R0 8)); I (LDR R8 (Off R0 40));
  I (LDR R9 (Off R0 72)); I (LDR R10 (Off R0 104)); I (USUB16 R11 R5 R7); I (USUB16 R8 R8 R9);
  I (UADD16 R11 R11 R8); I (STR R11 (Off R0 40)); I (USUB16 R6 R6 R8); I (USUB16 R6 R6 R10);
  I (STR R6 (Off R0 72)); I (LDR R5 (Off R3 12)); I (LDR R6 (Off R3 44)); I (LDR R7 (Off R0 12));
  I (LDR R8 (Off R0 44)); I (LDR R9 (Off R0 76)); I (LDR R10 (Off R0 108)); I (USUB16 R11 R5 R7);
  I (USUB16 R8 R8 R9); I (UADD16 R11 R11 R8); I (STR R11 (Off R0 44)); I (USUB16 R6 R6 R8);
  I (USUB16 R6 R6 R10); I (STR R6 (Off R0 76)); I (LDR R5 (Off R3 16)); I (LDR R6 (Off R3 48));
  I (LDR R7 (Off R0 16)); I (LDR R8 (Off R0 48)); I (LDR R9 (Off R0 80)); I (LDR R10 (Off R0 112));
  I (USUB16 R11 R5 R7); I (USUB16 R8 R8 R9); I (UADD16 R11 R11 R8); I (STR R11 (Off R0 48));
  I (USUB16 R6 R6 R8); I (USUB16 R6 R6 R10); I (STR R6 (Off R0 80)); I (LDR R5 (Off R3 20));
  I (LDR R6 (Off R3 52)); I (LDR R7 (Off R0 20)); I (LDR R8 (Off R0 52)); I (LDR R9 (Off R0 84));
  I (LDR R10 (Off R0 116)); I (USUB16 R11 R5 R7); I (USUB16 R8 R8 R9); I (UADD16 R11 R11 R8);
  I (STR R11 (Off R0 52)); I (USUB16 R6 R6 R8); I (USUB16 R6 R6 R10); I (STR R6 (Off R0 84));
  I (LDR R5 (Off R3 24)); I (LDR R6 (Off R3 56)); I (LDR R7 (Off R0 24)); I (LDR R8 (Off R0 56));
  I (LDR R9 (Off R0 88)); I (LDR R10 (Off R0 120)); I (USUB16 R11 R5 R7); I (USUB16 R8 R8 R9);
  I (UADD16 R11 R11 R8); I (STR R11 (Off R0 56)); I (USUB16 R6 R6 R8); I (USUB16 R6 R6 R10);
  I (STR R6 (Off R0 88)); I (LDRH R5 (Off R3 28)); I (LDRH R6 (Off R3 60)); I (LDRH R7 (Off R0 28));
  I (LDRH R8 (Off R0 60)); I (LDRH R9 (Off R0 92)); I (LDRH R10 (Off R0 124)); I (SUB R11 R5 (Rg R7));
  I (SUB R8 R8 (Rg R9)); I (ADD R11 R11 (Rg R8)); I (STRH R11 (Off R0 60)); I (SUB R6 R6 (Rg R8));
  I (SUB R6 R6 (Rg R10)); I (STRH R6 (Off R0 92)); I (LDRH R5 (Off R3 30)); I (LDRH R7 (Off R0 30));
  I (LDRH R9 (Off R0 94)); I (SUB R11 R5 (Rg R7)); I (SUB R11 R11 (Rg R9)); I (STRH R11 (Off R0 62));
  I (ADD SP SP (Imm 132)); I (POP [R2]); I (POP [R1]); I (SUB R1 R1 (Imm 64));
  I (SUB R2 R2 (Imm 64)); I (SUB SP SP (Imm 256)); I (LDR R3 (Off R1 0)); I (LDR R4 (Off R1 64));
  I (LDR R5 (Off R1 4)); I (LDR R6 (Off R1 68)); I (LDR R7 (Off R1 8)); I (LDR R8 (Off R1 72));
  I (LDR R9 (Off R1 12)); I (LDR R10 (Off R1 76)); I (LDR R11 (Off R1 16)); I (LDR R12 (Off R1 80));
  I (LDR R0 (Off R1 20)); I (LDR LR (Off R1 84)); I (UADD16 R3 R3 R4); I (UADD16 R5 R5 R6);
  I (UADD16 R7 R7 R8); I (UADD16 R9 R9 R10); I (UADD16 R11 R11 R12); I (UADD16 R0 R0 LR);
  I (STR R3 (Off SP 0)); I (STR R5 (Off SP 4)); I (STR R7 (Off SP 8)); I (STR R9 (Off SP 12));
  I (STR R11 (Off SP 16)); I (STR R0 (Off SP 20)); I (LDR R3 (Off R1 24)); I (LDR R4 (Off R1 88));
  I (LDR R5 (Off R1 28)); I (LDR R6 (Off R1 92)); I (LDR R7 (Off R1 32)); I (LDR R8 (Off R1 96));
  I (LDR R9 (Off R1 36)); I (LDR R10 (Off R1 100)); I (LDR R11 (Off R1 40)); I (LDR R12 (Off R1 104));
  I (LDR R0 (Off R1 44)); I (LDR LR (Off R1 108)); I (UADD16 R3 R3 R4); I (UADD16 R5 R5 R6);
  I (UADD16 R7 R7 R8); I (UADD16 R9 R9 R10); I (UADD16 R11 R11 R12); I (UADD16 R0 R0 LR);
  I (STR R3 (Off SP 24)); I (STR R5 (Off SP 28)); I (STR R7 (Off SP 32)); I (STR R9 (Off SP 36));
  I (STR R11 (Off SP 40)); I (STR R0 (Off SP 44)); I (LDR R3 (Off R1 48)); I (LDR R4 (Off R1 112));
  I (LDR R5 (Off R1 52)); I (LDR R6 (Off R1 116)); I (LDR R7 (Off R1 56)); I (LDR R8 (Off R1 120));
  I (LDR R9 (Off R1 60)); I (LDR R10 (Off R1 124)); I (UADD16 R3 R3 R4); I (UADD16 R5 R5 R6);
  I (UADD16 R7 R7 R8); I (UADD16 R9 R9 R10); I (STR R3 (Off SP 48)); I (STR R5 (Off SP 52));
  I (STR R7 (Off SP 56)); I (STR R9 (Off SP 60)); I (MOV R1 (Rg SP)); I (LDR R3 (Off R2 0));
  I (LDR R4 (Off R2 64)); I (LDR R5 (Off R2 4)); I (LDR R6 (Off R2 68)); I (LDR R7 (Off R2 8));
  I (LDR R8 (Off R2 72)); I (LDR R9 (Off R2 12)); I (LDR R10 (Off R2 76)); I (LDR R11 (Off R2 16));
  I (LDR R12 (Off R2 80)); I (LDR R0 (Off R2 20)); I (LDR LR (Off R2 84)); I (UADD16 R3 R3 R4);
  I (UADD16 R5 R5 R6); I (UADD16 R7 R7 R8); I (UADD16 R9 R9 R10); I (UADD16 R11 R11 R12);
  I (UADD16 R0 R0 LR); I (STR R3 (Off SP 64)); I (STR R5 (Off SP 68)); I (STR R7 (Off SP 72));
  I (STR R9 (Off SP 76)); I (STR R11 (Off SP 80)); I (STR R0 (Off SP 84)); I (LDR R3 (Off R2 24));
  I (LDR R4 (Off R2 88)); I (LDR R5 (Off R2 28)); I (LDR R6 (Off R2 92)); I (LDR R7 (Off R2 32));
  I (LDR R8 (Off R2 96)); I (LDR R9 (Off R2 36)); I (LDR R10 (Off R2 100)); I (LDR R11 (Off R2 40));
  I (LDR R12 (Off R2 104)); I (LDR R0 (Off R2 44)); I (LDR LR (Off R2 108)); I (UADD16 R3 R3 R4);
  I (UADD16 R5 R5 R6); I (UADD16 R7 R7 R8); I (UADD16 R9 R9 R10); I (UADD16 R11 R11 R12);
  I (UADD16 R0 R0 LR); I (STR R3 (Off SP 88)); I (STR R5 (Off SP 92)); I (STR R7 (Off SP 96));
  I (STR R9 (Off SP 100)); I (STR R11 (Off SP 104)); I (STR R0 (Off SP 108)); I (LDR R3 (Off R2 48));
  I (LDR R4 (Off R2 112)); I (LDR R5 (Off R2 52)); I (LDR R6 (Off R2 116)); I (LDR R7 (Off R2 56));
  I (LDR R8 (Off R2 120)); I (LDR R9 (Off R2 60)); I (LDR R10 (Off R2 124)); I (UADD16 R3 R3 R4);
  I (UADD16 R5 R5 R6); I (UADD16 R7 R7 R8); I (UADD16 R9 R9 R10); I (STR R3 (Off SP 112));
  I (STR R5 (Off SP 116)); I (STR R7 (Off SP 120)); I (STR R9 (Off SP 124)); I (ADD R2 SP (Imm 64));
  I (ADD R0 SP (Imm 128));
  Call schoolbook_16x16;
  I (PUSH [R1]); I (PUSH [R2]); I (PUSH [R0]); I (ADD R1 R1 (Imm 32));
  I (ADD R2 R2 (Imm 32)); I (ADD R0 R0 (Imm 64));
  Call schoolbook_16x16;
  I (SUB R1 R1 (Imm 32)); I (SUB R2 R2 (Imm 32)); I (SUB SP SP (Imm 128)); I (LDR R3 (Off R1 0));
  I (LDR R4 (Off R1 32)); I (LDR R5 (Off R1 4)); I (LDR R6 (Off R1 36)); I (LDR R7 (Off R1 8));
  I (LDR R8 (Off R1 40)); I (LDR R9 (Off R1 12)); I (LDR R10 (Off R1 44)); I (LDR R11 (Off R1 16));
  I (LDR R12 (Off R1 48)); I (LDR R0 (Off R1 20)); I (LDR LR (Off R1 52)); I (UADD16 R3 R3 R4);
  I (UADD16 R5 R5 R6); I (UADD16 R7 R7 R8); I (UADD16 R9 R9 R10); I (UADD16 R11 R11 R12);
  I (UADD16 R0 R0 LR); I (STR R3 (Off SP 0)); I (STR R5 (Off SP 4)); I (STR R7 (Off SP 8));
  I (STR R9 (Off SP 12)); I (STR R11 (Off SP 16)); I (STR R0 (Off SP 20)); I (LDR R3 (Off R1 24));
  I (LDR R4 (Off R1 56)); I (LDR R5 (Off R1 28)); I (LDR R6 (Off R1 60)); I (UADD16 R3 R3 R4);
  I (UADD16 R5 R5 R6); I (STR R3 (Off SP 24)); I (STR R5 (Off SP 28)); I (MOV R1 (Rg SP));
  I (LDR R3 (Off R2 0)); I (LDR R4 (Off R2 32)); I (LDR R5 (Off R2 4)); I (LDR R6 (Off R2 36));
  I (LDR R7 (Off R2 8)); I (LDR R8 (Off R2 40)); I (LDR R9 (Off R2 12)); I (LDR R10 (Off R2 44));
  I (LDR R11 (Off R2 16)); I (LDR R12 (Off R2 48)); I (LDR R0 (Off R2 20)); I (LDR LR (Off R2 52));
  I (UADD16 R3 R3 R4); I (UADD16 R5 R5 R6); I (UADD16 R7 R7 R8); I (UADD16 R9 R9 R10);
  I (UADD16 R11 R11 R12); I (UADD16 R0 R0 LR); I (STR R3 (Off SP 32)); I (STR R5 (Off SP 36));
  I (STR R7 (Off SP 40)); I (STR R9 (Off SP 44)); I (STR R11 (Off SP 48)); I (STR R0 (Off SP 52));
  I (LDR R3 (Off R2 24)); I (LDR R4 (Off R2 56)); I (LDR R5 (Off R2 28)); I (LDR R6 (Off R2 60));
  I (UADD16 R3 R3 R4); I (UADD16 R5 R5 R6); I (STR R3 (Off SP 56)); I (STR R5 (Off SP 60));
  I (ADD R2 SP (Imm 32)); I (ADD R0 SP (Imm 64));
  Call schoolbook_16x16;
  I (MOV R3 (Rg R0)); I (LDR R0 (Off SP 128)); I (LDR R5 (Off R3 0)); I (LDR R6 (Off R3 32));
  I (LDR R7 (Off R0 0)); I (LDR R8 (Off R0 32)); I (LDR R9 (Off R0 64)); I (LDR R10 (Off R0 96));
  I (USUB16 R11 R5 R7); I (USUB16 R8 R8 R9); I (UADD16 R11 R11 R8); I (STR R11 (Off R0 32));
  I (USUB16 R6 R6 R8); I (USUB16 R6 R6 R10); I (STR R6 (Off R0 64)); I (LDR R5 (Off R3 4));
  I (LDR R6 (Off R3 36)); I (LDR R7 (Off R0 4)); I (LDR R8 (Off R0 36)); I (LDR R9 (Off R0 68));
  I (LDR R10 (Off R0 100)); I (USUB16 R11 R5 R7); I (USUB16 R8 R8 R9); I (UADD16 R11 R11 R8);
  I (STR R11 (Off R0 36)); I (USUB16 R6 R6 R8); I (USUB16 R6 R6 R10); I (STR R6 (Off R0 68));
  I (LDR R5 (Off R3 8)); I (LDR R6 (Off R3 40)); I (LDR R7 (Off R0 8)); I (LDR R8 (Off R0 40));
  I (LDR R9 (Off R0 72)); I (LDR R10 (Off R0 104)); I (USUB16 R11 R5 R7); I (USUB16 R8 R8 R9);
  I (UADD16 R11 R11 R8); I (STR R11 (Off R0 40)); I (USUB16 R6 R6 R8); I (USUB16 R6 R6 R10);
  I (STR R6 (Off R0 72)); I (LDR R5 (Off R3 12)); I (LDR R6 (Off R3 44)); I (LDR R7 (Off R0 12));
  I (LDR R8 (Off R0 44)); I (LDR R9 (Off R0 76)); I (LDR R10 (Off R0 108)); I (USUB16 R11 R5 R7);
  I (USUB16 R8 R8 R9); I (UADD16 R11 R11 R8); I (STR R11 (Off R0 44)); I (USUB16 R6 R6 R8);
  I (USUB16 R6 R6 R10); I (STR R6 (Off R0 76)); I (LDR R5 (Off R3 16)); I (LDR R6 (Off R3 48));
  I (LDR R7 (Off R0 16)); I (LDR R8 (Off R0 48)); I (LDR R9 (Off R0 80)); I (LDR R10 (Off R0 112));
  I (USUB16 R11 R5 R7); I (USUB16 R8 R8 R9); I (UADD16 R11 R11 R8); I (STR R11 (Off R0 48));
  I (USUB16 R6 R6 R8); I (USUB16 R6 R6 R10); I (STR R6 (Off R0 80)); I (LDR R5 (Off R3 20));
  I (LDR R6 (Off R3 52)); I (LDR R7 (Off R0 20)); I (LDR R8 (Off R0 52)); I (LDR R9 (Off R0 84));
  I (LDR R10 (Off R0 116)); I (USUB16 R11 R5 R7); I (USUB16 R8 R8 R9); I (UADD16 R11 R11 R8);
  I (STR R11 (Off R0 52)); I (USUB16 R6 R6 R8); I (USUB16 R6 R6 R10); I (STR R6 (Off R0 84));
  I (LDR R5 (Off R3 24)); I (LDR R6 (Off R3 56)); I (LDR R7 (Off R0 24)); I (LDR R8 (Off R0 56));
  I (LDR R9 (Off R0 88)); I (LDR R10 (Off R0 120)); I (USUB16 R11 R5 R7); I (USUB16 R8 R8 R9);
  I (UADD16 R11 R11 R8); I (STR R11 (Off R0 56)); I (USUB16 R6 R6 R8); I (USUB16 R6 R6 R10);
  I (STR R6 (Off R0 88)); I (LDRH R5 (Off R3 28)); I (LDRH R6 (Off R3 60)); I (LDRH R7 (Off R0 28));
  I (LDRH R8 (Off R0 60)); I (LDRH R9 (Off R0 92)); I (LDRH R10 (Off R0 124)); I (SUB R11 R5 (Rg R7));
  I (SUB R8 R8 (Rg R9)); I (ADD R11 R11 (Rg R8)); I (STRH R11 (Off R0 60)); I (SUB R6 R6 (Rg R8));
  I (SUB R6 R6 (Rg R10)); I (STRH R6 (Off R0 92)); I (LDRH R5 (Off R3 30)); I (LDRH R7 (Off R0 30));
  I (LDRH R9 (Off R0 94)); I (SUB R11 R5 (Rg R7)); I (SUB R11 R11 (Rg R9)); I (STRH R11 (Off R0 62));
  I (ADD SP SP (Imm 132)); I (POP [R2]); I (POP [R1]); I (MOV R3 (Rg R0));
  I (LDR R0 (Off SP 256)); I (LDR R5 (Off R3 0)); I (LDR R6 (Off R3 64)); I (LDR R7 (Off R0 0));
  I (LDR R8 (Off R0 64)); I (LDR R9 (Off R0 128)); I (LDR R10 (Off R0 192)); I (USUB16 R11 R5 R7);
  I (USUB16 R8 R8 R9); I (UADD16 R11 R11 R8); I (STR R11 (Off R0 64)); I (USUB16 R6 R6 R8);
  I (USUB16 R6 R6 R10); I (STR R6 (Off R0 128)); I (LDR R5 (Off R3 4)); I (LDR R6 (Off R3 68));
  I (LDR R7 (Off R0 4)); I (LDR R8 (Off R0 68)); I (LDR R9 (Off R0 132)); I (LDR R10 (Off R0 196));
  I (USUB16 R11 R5 R7); I (USUB16 R8 R8 R9); I (UADD16 R11 R11 R8); I (STR R11 (Off R0 68));
  I (USUB16 R6 R6 R8); I (USUB16 R6 R6 R10); I (STR R6 (Off R0 132)); I (LDR R5 (Off R3 8));
  I (LDR R6 (Off R3 72)); I (LDR R7 (Off R0 8)); I (LDR R8 (Off R0 72)); I (LDR R9 (Off R0 136));
  I (LDR R10 (Off R0 200)); I (USUB16 R11 R5 R7); I (USUB16 R8 R8 R9); I (UADD16 R11 R11 R8);
  I (STR R11 (Off R0 72)); I (USUB16 R6 R6 R8); I (USUB16 R6 R6 R10); I (STR R6 (Off R0 136));
  I (LDR R5 (Off R3 12)); I (LDR R6 (Off R3 76)); I (LDR R7 (Off R0 12)); I (LDR R8 (Off R0 76));
  I (LDR R9 (Off R0 140)); I (LDR R10 (Off R0 204)); I (USUB16 R11 R5 R7); I (USUB16 R8 R8 R9);
  I (UADD16 R11 R11 R8); I (STR R11 (Off R0 76)); I (USUB16 R6 R6 R8); I (USUB16 R6 R6 R10);
  I (STR R6 (Off R0 140)); I (LDR R5 (Off R3 16)); I (LDR R6 (Off R3 80)); I (LDR R7 (Off R0 16));
  I (LDR R8 (Off R0 80)); I (LDR R9 (Off R0 144)); I (LDR R10 (Off R0 208)); I (USUB16 R11 R5 R7);
  I (USUB16 R8 R8 R9); I (UADD16 R11 R11 R8); I (STR R11 (Off R0 80)); I (USUB16 R6 R6 R8);
  I (USUB16 R6 R6 R10); I (STR R6 (Off R0 144)); I (LDR R5 (Off R3 20)); I (LDR R6 (Off R3 84));
  I (LDR R7 (Off R0 20)); I (LDR R8 (Off R0 84)); I (LDR R9 (Off R0 148)); I (LDR R10 (Off R0 212));
  I (USUB16 R11 R5 R7); I (USUB16 R8 R8 R9); I (UADD16 R11 R11 R8); I (STR R11 (Off R0 84));
  I (USUB16 R6 R6 R8); I (USUB16 R6 R6 R10); I (STR R6 (Off R0 148)); I (LDR R5 (Off R3 24));
  I (LDR R6 (Off R3 88)); I (LDR R7 (Off R0 24)); I (LDR R8 (Off R0 88)); I (LDR R9 (Off R0 152));
  I (LDR R10 (Off R0 216)); I (USUB16 R11 R5 R7); I (USUB16 R8 R8 R9); I (UADD16 R11 R11 R8);
  I (STR R11 (Off R0 88)); I (USUB16 R6 R6 R8); I (USUB16 R6 R6 R10); I (STR R6 (Off R0 152));
  I (LDR R5 (Off R3 28)); I (LDR R6 (Off R3 92)); I (LDR R7 (Off R0 28)); I (LDR R8 (Off R0 92));
  I (LDR R9 (Off R0 156)); I (LDR R10 (Off R0 220)); I (USUB16 R11 R5 R7); I (USUB16 R8 R8 R9);
  I (UADD16 R11 R11 R8); I (STR R11 (Off R0 92)); I (USUB16 R6 R6 R8); I (USUB16 R6 R6 R10);
  I (STR R6 (Off R0 156)); I (LDR R5 (Off R3 32)); I (LDR R6 (Off R3 96)); I (LDR R7 (Off R0 32));
  I (LDR R8 (Off R0 96)); I (LDR R9 (Off R0 160)); I (LDR R10 (Off R0 224)); I (USUB16 R11 R5 R7);
  I (USUB16 R8 R8 R9); I (UADD16 R11 R11 R8); I (STR R11 (Off R0 96)); I (USUB16 R6 R6 R8);
  I (USUB16 R6 R6 R10); I (STR R6 (Off R0 160)); I (LDR R5 (Off R3 36)); I (LDR R6 (Off R3 100));
  I (LDR R7 (Off R0 36)); I (LDR R8 (Off R0 100)); I (LDR R9 (Off R0 164)); I (LDR R10 (Off R0 228));
  I (USUB16 R11 R5 R7); I (USUB16 R8 R8 R9); I (UADD16 R11 R11 R8); I (STR R11 (Off R0 100));
  I (USUB16 R6 R6 R8); I (USUB16 R6 R6 R10); I (STR R6 (Off R0 164)); I (LDR R5 (Off R3 40));
  I (LDR R6 (Off R3 104)); I (LDR R7 (Off R0 40)); I (LDR R8 (Off R0 104)); I (LDR R9 (Off R0 168));
  I (LDR R10 (Off R0 232)); I (USUB16 R11 R5 R7); I (USUB16 R8 R8 R9); I (UADD16 R11 R11 R8);
  I (STR R11 (Off R0 104)); I (USUB16 R6 R6 R8); I (USUB16 R6 R6 R10); I (STR R6 (Off R0 168));
  I (LDR R5 (Off R3 44)); I (LDR R6 (Off R3 108)); I (LDR R7 (Off R0 44)); I (LDR R8 (Off R0 108));
  I (LDR R9 (Off R0 172)); I (LDR R10 (Off R0 236)); I (USUB16 R11 R5 R7); I (USUB16 R8 R8 R9);
  I (UADD16 R11 R11 R8); I (STR R11 (Off R0 108)); I (USUB16 R6 R6 R8); I (USUB16 R6 R6 R10);
  I (STR R6 (Off R0 172)); I (LDR R5 (Off R3 48)); I (LDR R6 (Off R3 112)); I (LDR R7 (Off R0 48));
  I (LDR R8 (Off R0 112)); I (LDR R9 (Off R0 176)); I (LDR R10 (Off R0 240)); I (USUB16 R11 R5 R7);
  I (USUB16 R8 R8 R9); I (UADD16 R11 R11 R8); I (STR R11 (Off R0 112)); I (USUB16 R6 R6 R8);
  I (USUB16 R6 R6 R10); I (STR R6 (Off R0 176)); I (LDR R5 (Off R3 52)); I (LDR R6 (Off R3 116));
  I (LDR R7 (Off R0 52)); I (LDR R8 (Off R0 116)); I (LDR R9 (Off R0 180)); I (LDR R10 (Off R0 244));
  I (USUB16 R11 R5 R7); I (USUB16 R8 R8 R9); I (UADD16 R11 R11 R8); I (STR R11 (Off R0 116));
  I (USUB16 R6 R6 R8); I (USUB16 R6 R6 R10); I (STR R6 (Off R0 180)); I (LDR R5 (Off R3 56));
  I (LDR R6 (Off R3 120)); I (LDR R7 (Off R0 56)); I (LDR R8 (Off R0 120)); I (LDR R9 (Off R0 184));
  I (LDR R10 (Off R0 248)); I (USUB16 R11 R5 R7); I (USUB16 R8 R8 R9); I (UADD16 R11 R11 R8);
  I (STR R11 (Off R0 120)); I (USUB16 R6 R6 R8); I (USUB16 R6 R6 R10); I (STR R6 (Off R0 184));
  I (LDRH R5 (Off R3 60)); I (LDRH R6 (Off R3 124)); I (LDRH R7 (Off R0 60)); I (LDRH R8 (Off R0 124));
  I (LDRH R9 (Off R0 188)); I (LDRH R10 (Off R0 252)); I (SUB R11 R5 (Rg R7)); I (SUB R8 R8 (Rg R9));
  I (ADD R11 R11 (Rg R8)); I (STRH R11 (Off R0 124)); I (SUB R6 R6 (Rg R8)); I (SUB R6 R6 (Rg R10));
  I (STRH R6 (Off R0 188)); I (LDRH R5 (Off R3 62)); I (LDRH R7 (Off R0 62)); I (LDRH R9 (Off R0 190));
  I (SUB R11 R5 (Rg R7)); I (SUB R11 R11 (Rg R9)); I (STRH R11 (Off R0 126)); I (ADD SP SP (Imm 260));
  I (POP [R2]); I (POP [R1]); I (LDR LR (Post SP 4)); I (BX LR) ].

(** asm_funcs.S:12-350.  The [bx lr] and [nop] of lines 351 and 352 are not reached. *)
Definition toom_cook_4way_mem_asm : list stmt := [
  I (PUSH [R3; R4; R5; R6; R7; R8; R9; R10; R11; R12; LR]); I (SUB SP SP (Imm 3076)); I (MOV R3 (Rg SP)); I (MOV R11 (Rg R2));
  I (ADD R2 R3 (Imm 1792)); I (ADD R12 R0 (Imm 128));
  Loop [
    LDR R6 (Off R0 384); LDR R4 (Off R0 128); LDR R5 (Off R0 256); LDR R3 (Post R0 4);
    CMP R0 (Rg R12); UADD16 R8 R4 R6; UADD16 R7 R3 R5; UADD16 R9 R7 R8;
    USUB16 R10 R7 R8; STR R9 (Off R2 128); STR R10 (Off R2 256); UADD16 R7 R3 R3;
    UADD16 R7 R7 R7; UADD16 R7 R7 R5; UADD16 R7 R7 R7; UADD16 R8 R4 R4;
    UADD16 R8 R8 R8; UADD16 R8 R8 R6; UADD16 R9 R7 R8; USUB16 R10 R7 R8;
    STR R9 (Off R2 384); STR R10 (Off R2 512); UADD16 R7 R6 R6; UADD16 R7 R7 R5;
    UADD16 R7 R7 R7; UADD16 R7 R7 R4; UADD16 R7 R7 R7; UADD16 R7 R7 R3;
    STR R7 (Post R2 4) ];
  I (ADD R12 R1 (Imm 128)); I (ADD R2 R2 (Imm 512));
  Loop [
    LDR R6 (Off R1 384); LDR R4 (Off R1 128); LDR R5 (Off R1 256); LDR R3 (Post R1 4);
    CMP R1 (Rg R12); UADD16 R8 R4 R6; UADD16 R7 R3 R5; UADD16 R9 R7 R8;
    USUB16 R10 R7 R8; STR R9 (Off R2 128); STR R10 (Off R2 256); UADD16 R7 R3 R3;
    UADD16 R7 R7 R7; UADD16 R7 R7 R5; UADD16 R7 R7 R7; UADD16 R8 R4 R4;
    UADD16 R8 R8 R8; UADD16 R8 R8 R6; UADD16 R9 R7 R8; USUB16 R10 R7 R8;
    STR R9 (Off R2 384); STR R10 (Off R2 512); UADD16 R7 R6 R6; UADD16 R7 R7 R5;
    UADD16 R7 R7 R7; UADD16 R7 R7 R4; UADD16 R7 R7 R7; UADD16 R7 R7 R3;
    STR R7 (Post R2 4) ];
  I (MOV R9 (Rg R11)); I (MOV R11 (Rg R0)); I (MOV R4 (Rg R1)); I (SUB R0 R2 (Imm 2560));
  I (MOV R1 (Imm 0)); I (MOV R2 (Imm 1792));
  Memset;
  I (MOV R10 (Rg R0)); I (SUB R2 R11 (Imm 128)); I (SUB R1 R4 (Imm 128)); I (ADD R0 R10 (Imm 1536));
  I (PUSH [R4; R9; R10; R11]);
  Call karatsuba_64x64;
  I (POP [R4; R9; R10; R11]); I (ADD R2 R11 (Imm 256)); I (ADD R1 R4 (Imm 256)); I (MOV R0 (Rg R10));
  I (PUSH [R9; R10]);
  Call karatsuba_64x64;
  I (POP [R9; R10]); I (ADD R2 R10 (Imm 2304)); I (ADD R1 R10 (Imm 2944)); I (ADD R0 R10 (Imm 1280));
  I (PUSH [R9; R10]);
  Call karatsuba_64x64;
  I (POP [R9; R10]); I (ADD R2 R10 (Imm 2176)); I (ADD R1 R10 (Imm 2816)); I (ADD R0 R10 (Imm 1024));
  I (PUSH [R9; R10]);
  Call karatsuba_64x64;
  I (POP [R9; R10]); I (ADD R2 R10 (Imm 2048)); I (ADD R1 R10 (Imm 2688)); I (ADD R0 R10 (Imm 768));
  I (PUSH [R9; R10]);
  Call karatsuba_64x64;
  I (POP [R9; R10]); I (ADD R2 R10 (Imm 1920)); I (ADD R1 R10 (Imm 2560)); I (ADD R0 R10 (Imm 512));
  I (PUSH [R9; R10]);
  Call karatsuba_64x64;
  I (POP [R9; R10]); I (ADD R2 R10 (Imm 1792)); I (ADD R1 R10 (Imm 2432)); I (ADD R0 R10 (Imm 256));
  I (PUSH [R9; R10]);
  Call karatsuba_64x64;
  I (POP [R9; R10]); I (MOV LR (Imm 8191)); I (MOV R0 (Imm 0)); I (MOV R11 (Imm 128));
  I (ADD LR LR (Lsl LR 16));
  Loop [
    LDR R5 (Off R10 1024); LDR R3 (Off R10 512); LDR R2 (Off R10 256); LDR R7 (Off R10 1536);
    LDR R6 (Off R10 1280); LDR R4 (Off R10 768); LDR R1 (Post R10 4); UADD16 R2 R2 R5;
    USUB16 R6 R6 R5; USUB16 R4 R4 R3; USUB16 R5 R5 R1; MOV R11 (Lsr R7 16);
    MOV R12 (Lsl R7 6); PKHBT R8 R12 R11 22; USUB16 R5 R5 R8; MOV R11 (Lsl R4 16);
    MOV R12 (Lsr R4 1); PKHTB R4 R12 R11 17; UADD16 R3 R3 R4; MOV R11 (Lsr R5 16);
    MOV R12 (Lsl R5 1); PKHBT R8 R12 R11 17; UADD16 R5 R6 R8; MOV R11 (Lsr R3 16);
    MOV R12 (Lsl R3 6); PKHBT R8 R12 R11 22; UADD16 R8 R3 R8; USUB16 R2 R2 R8;
    USUB16 R3 R3 R7; USUB16 R3 R3 R1; MOV R8 (Imm 45); SMUL false false R11 R3 R8;
    SMUL true false R12 R3 R8; PKHBT R8 R11 R12 16; UADD16 R2 R2 R8; MOV R11 (Lsr R3 16);
    MOV R12 (Lsl R3 3); PKHBT R8 R12 R11 19; USUB16 R5 R5 R8; MOV R8 (Imm 43691);
    SMUL false false R11 R5 R8; SMUL true false R12 R5 R8; PKHBT R8 R11 R12 16; MOV R11 (Lsl R8 16);
    MOV R12 (Lsr R8 3); PKHTB R5 R12 R11 19; UADD16 R6 R2 R6; MOV R11 (Lsr R4 16);
    MOV R12 (Lsl R4 4); PKHBT R8 R12 R11 20; UADD16 R2 R2 R8; MOV R8 (Imm 36409);
    SMUL false false R11 R2 R8; SMUL true false R12 R2 R8; PKHBT R8 R11 R12 16; MOV R11 (Lsl R8 16);
    MOV R12 (Lsr R8 1); PKHTB R2 R12 R11 17; USUB16 R3 R3 R5; UADD16 R4 R4 R2;
    MOV R8 (Imm 0); USUB16 R4 R8 R4; MOV R8 (Imm 30); SMUL false false R11 R2 R8;
    SMUL true false R12 R2 R8; PKHBT R8 R11 R12 16; USUB16 R6 R8 R6; MOV R8 (Imm 61167);
    SMUL false false R11 R6 R8; SMUL true false R12 R6 R8; PKHBT R8 R11 R12 16; MOV R11 (Lsl R8 16);
    MOV R12 (Lsr R8 1); PKHTB R6 R12 R11 17; USUB16 R7 R7 R3; USUB16 R6 R6 R2;
    USUB16 R5 R5 R1; LDR R3 (Off R9 0); LDR R2 (Off R9 128); LDR R1 (Off R9 256);
    UADD16 R7 R7 R3; UADD16 R6 R6 R2; UADD16 R5 R5 R1; AND R7 R7 (Rg LR);
    AND R6 R6 (Rg LR); AND R5 R5 (Rg LR); CMP R0 (Imm 63); ADD R0 R0 (Imm 2);
    SUB R1 R9 (Imm 128); ITLS (ADD R1 R1 (Imm 512)); LDR R8 (Off R1 0); STR R5 (Off R9 256);
    STR R6 (Off R9 128); STR R7 (Post R9 4); USUB16 R3 R8 R4; ITLS (UADD16 R3 R8 R4);
    CMP R0 (Imm 126); AND R3 R3 (Rg LR); STR R3 (Off R1 0) ];
  I (LDRH R5 (Off R10 1024)); I (LDRH R3 (Off R10 512)); I (LDRH R2 (Off R10 256)); I (LDRH R7 (Off R10 1536));
  I (LDRH R6 (Off R10 1280)); I (LDRH R4 (Off R10 768)); I (LDRH R1 (Post R10 4)); I (UADD16 R2 R2 R5);
  I (USUB16 R6 R6 R5); I (USUB16 R4 R4 R3); I (USUB16 R5 R5 R1); I (MOV R8 (Lsl R7 6));
  I (USUB16 R5 R5 R8); I (MOV R4 (Lsr R4 1)); I (UADD16 R3 R3 R4); I (MOV R8 (Lsl R5 1));
  I (UADD16 R5 R6 R8); I (MOV R8 (Lsl R3 6)); I (UADD16 R8 R3 R8); I (USUB16 R2 R2 R8);
  I (USUB16 R3 R3 R7); I (USUB16 R3 R3 R1); I (MOV R8 (Imm 45)); I (SMUL false false R8 R3 R8);
  I (UADD16 R2 R2 R8); I (MOV R8 (Lsl R3 3)); I (USUB16 R5 R5 R8); I (MOV R8 (Imm 43691));
  I (SMUL false false R8 R5 R8); I (MOV R5 (Lsr R8 3)); I (UADD16 R6 R2 R6); I (MOV R8 (Lsl R4 4));
  I (UADD16 R2 R2 R8); I (MOV R8 (Imm 36409)); I (SMUL false false R8 R2 R8); I (MOV R2 (Lsr R8 1));
  I (USUB16 R3 R3 R5); I (UADD16 R4 R4 R2); I (MOV R8 (Imm 0)); I (USUB16 R4 R8 R4);
  I (MOV R8 (Imm 30)); I (SMUL false false R8 R2 R8); I (USUB16 R6 R8 R6); I (MOV R8 (Imm 61167));
  I (SMUL false false R8 R6 R8); I (MOV R6 (Lsr R8 1)); I (USUB16 R7 R7 R3); I (USUB16 R6 R6 R2);
  I (USUB16 R5 R5 R1); I (LDRH R3 (Off R9 0)); I (LDRH R2 (Off R9 128)); I (LDRH R1 (Off R9 256));
  I (UADD16 R7 R7 R3); I (UADD16 R6 R6 R2); I (UADD16 R5 R5 R1); I (UBFX R7 R7 0 13);
  I (UBFX R6 R6 0 13); I (UBFX R5 R5 0 13); I (CMP R0 (Imm 63)); I (ADD R0 R0 (Imm 2));
  I (SUB R1 R9 (Imm 128)); I (ITLS (ADD R1 R1 (Imm 512))); I (LDR R8 (Off R1 0)); I (STRH R5 (Off R9 256));
  I (STRH R6 (Off R9 128)); I (STRH R7 (Post R9 4)); I (USUB16 R3 R8 R4); I (ITLS (UADD16 R3 R8 R4));
  I (CMP R0 (Imm 126)); I (UBFX R3 R3 0 13); I (STRH R3 (Off R1 0)); I (ADD SP SP (Imm 3076));
  I (POP [R3; R4; R5; R6; R7; R8; R9; R10; R11; R12; PC]) ].

(** kara.s:6-306. *)
Definition schoolbook_gen : list stmt := [
  I (PUSH [LR]); I (LDR R6 (Off R1 0)); I (LDR R12 (Off R1 4)); I (LDR R3 (Off R1 8));
  I (LDR R10 (Off R1 12)); I (LDR R7 (Off R1 32)); I (LDR R8 (Off R1 36)); I (LDR R4 (Off R1 40));
  I (LDR LR (Off R1 44)); I (STR R1 (Pre SP (-4))); I (SMUL false false R9 R7 R6); I (SMUAD true R11 R7 R6);
  I (PKHBT R9 R9 R11 16); I (STR R9 (Off R0 0)); I (SMUAD true R11 R7 R12); I (SMUL false false R5 R7 R12);
  I (PKHBT R9 R8 R7 0); I (SMLAD true R11 R8 R6 R11); I (SMLAD false R5 R9 R6 R5); I (PKHBT R11 R5 R11 16);
  I (STR R11 (Off R0 4)); I (SMUL false false R5 R3 R7); I (SMUAD true R11 R3 R7); I (SMLAD false R5 R9 R12 R5);
  I (PKHBT R2 R4 R8 0); I (SMLAD false R5 R2 R6 R5); I (SMLAD true R11 R8 R12 R11); I (SMLAD true R11 R4 R6 R11);
  I (PKHBT R11 R5 R11 16); I (STR R11 (Off R0 8)); I (SMUL false false R5 R10 R7); I (SMUAD true R11 R10 R7);
  I (SMLAD false R5 R12 R2 R5); I (SMLAD false R5 R3 R9 R5); I (PKHBT R1 LR R4 0); I (SMLAD false R5 R6 R1 R5);
  I (SMLAD true R11 R3 R8 R11); I (SMLAD true R11 R12 R4 R11); I (SMLAD true R11 R6 LR R11); I (PKHBT R11 R5 R11 16);
  I (STR R11 (Off R0 12)); I (SMUL true true R5 R6 LR); I (SMUAD true R11 R10 R8); I (SMLAD false R5 R12 R1 R5);
  I (SMLAD false R5 R10 R9 R5); I (SMLAD false R5 R3 R2 R5); I (SMLAD true R11 R3 R4 R11); I (SMLAD true R11 R12 LR R11);
  I (PKHBT R11 R5 R11 16); I (STR R11 (Off R0 16)); I (SMUL true true R5 R12 LR); I (SMUAD true R11 R10 R4);
  I (SMLAD false R5 R10 R2 R5); I (SMLAD false R5 R3 R1 R5); I (SMLAD true R11 R3 LR R11); I (PKHBT R11 R5 R11 16);
  I (STR R11 (Off R0 20)); I (SMUAD false R5 R10 R1); I (SMUAD true R11 R10 LR); I (SMLA true true R5 R3 LR R5);
  I (PKHBT R11 R5 R11 16); I (LDR R1 (Post SP 4)); I (STR R11 (Off R0 24)); I (SMUL true true R11 R10 LR);
  I (MOVT R11 0); I (STR R11 (Off R0 28)); I (LDR R7 (Off R1 48)); I (LDR R8 (Off R1 52));
  I (LDR R4 (Off R1 56)); I (LDR LR (Off R1 60)); I (STR R1 (Pre SP (-4))); I (LDR R9 (Off R0 16));
  I (LDR R5 (Off R0 20)); I (MOV R11 (Lsr R9 16)); I (SMLA false false R9 R7 R6 R9); I (SMLAD true R11 R7 R6 R11);
  I (PKHBT R9 R9 R11 16); I (STR R9 (Off R0 16)); I (MOV R11 (Lsr R5 16)); I (SMLAD true R11 R7 R12 R11);
  I (SMLA false false R5 R7 R12 R5); I (PKHBT R9 R8 R7 0); I (SMLAD true R11 R8 R6 R11); I (SMLAD false R5 R9 R6 R5);
  I (PKHBT R11 R5 R11 16); I (LDR R5 (Off R0 24)); I (STR R11 (Off R0 20)); I (MOV R11 (Lsr R5 16));
  I (SMLA false false R5 R3 R7 R5); I (SMLAD true R11 R3 R7 R11); I (SMLAD false R5 R9 R12 R5); I (PKHBT R2 R4 R8 0);
  I (SMLAD false R5 R2 R6 R5); I (SMLAD true R11 R8 R12 R11); I (SMLAD true R11 R4 R6 R11); I (PKHBT R11 R5 R11 16);
  I (LDR R5 (Off R0 28)); I (STR R11 (Off R0 24)); I (MOV R11 (Lsr R5 16)); I (SMLA false false R5 R10 R7 R5);
  I (SMLAD true R11 R10 R7 R11); I (SMLAD false R5 R12 R2 R5); I (SMLAD false R5 R3 R9 R5); I (PKHBT R1 LR R4 0);
  I (SMLAD false R5 R6 R1 R5); I (SMLAD true R11 R3 R8 R11); I (SMLAD true R11 R12 R4 R11); I (SMLAD true R11 R6 LR R11);
  I (PKHBT R11 R5 R11 16); I (STR R11 (Off R0 28)); I (SMUL true true R5 R6 LR); I (SMUAD true R11 R10 R8);
  I (SMLAD false R5 R12 R1 R5); I (SMLAD false R5 R10 R9 R5); I (SMLAD false R5 R3 R2 R5); I (LDR R9 (Off R0 0));
  I (SMLAD true R11 R3 R4 R11); I (SMLAD true R11 R12 LR R11); I (PKHBT R11 R5 R11 16); I (USUB16 R11 R9 R11);
  I (LDR R9 (Off R0 4)); I (STR R11 (Off R0 0)); I (SMUL true true R5 R12 LR); I (SMUAD true R11 R10 R4);
  I (SMLAD false R5 R10 R2 R5); I (SMLAD false R5 R3 R1 R5); I (SMLAD true R11 R3 LR R11); I (PKHBT R11 R5 R11 16);
  I (USUB16 R11 R9 R11); I (LDR R9 (Off R0 8)); I (STR R11 (Off R0 4)); I (SMUAD false R5 R10 R1);
  I (SMUAD true R11 R10 LR); I (SMLA true true R5 R3 LR R5); I (PKHBT R11 R5 R11 16); I (USUB16 R11 R9 R11);
  I (LDR R9 (Off R0 12)); I (LDR R1 (Post SP 4)); I (STR R11 (Off R0 8)); I (SMUL true true R11 R10 LR);
  I (MOVT R11 0); I (USUB16 R11 R9 R11); I (STR R11 (Off R0 12)); I (LDR R6 (Off R1 16));
  I (LDR R12 (Off R1 20)); I (LDR R3 (Off R1 24)); I (LDR R10 (Off R1 28)); I (PUSH [R1]);
  I (LDR R2 (Off R0 0)); I (LDR R1 (Off R0 4)); I (SMUL false false R9 R7 R6); I (SMUAD true R11 R7 R6);
  I (PKHBT R9 R9 R11 16); I (USUB16 R9 R2 R9); I (STR R9 (Off R0 0)); I (SMUAD true R11 R7 R12);
  I (SMUL false false R5 R7 R12); I (PKHBT R9 R8 R7 0); I (SMLAD true R11 R8 R6 R11); I (SMLAD false R5 R9 R6 R5);
  I (PKHBT R11 R5 R11 16); I (USUB16 R11 R1 R11); I (LDR R1 (Off R0 8)); I (STR R11 (Off R0 4));
  I (SMUL false false R5 R3 R7); I (SMUAD true R11 R3 R7); I (SMLAD false R5 R9 R12 R5); I (PKHBT R2 R4 R8 0);
  I (SMLAD false R5 R2 R6 R5); I (SMLAD true R11 R8 R12 R11); I (SMLAD true R11 R4 R6 R11); I (PKHBT R11 R5 R11 16);
  I (USUB16 R11 R1 R11); I (STR R11 (Off R0 8)); I (SMUL false false R5 R10 R7); I (SMUAD true R11 R10 R7);
  I (SMLAD false R5 R12 R2 R5); I (SMLAD false R5 R3 R9 R5); I (PKHBT R1 LR R4 0); I (SMLAD false R5 R6 R1 R5);
  I (LDR R9 (Off R0 12)); I (SMLAD true R11 R3 R8 R11); I (SMLAD true R11 R12 R4 R11); I (SMLAD true R11 R6 LR R11);
  I (PKHBT R11 R5 R11 16); I (USUB16 R11 R9 R11); I (STR R11 (Off R0 12)); I (SMUL true true R5 R6 LR);
  I (SMUAD true R11 R10 R8); I (SMLAD false R5 R12 R1 R5); I (PKHBT R9 R8 R7 0); I (SMLAD false R5 R10 R9 R5);
  I (SMLAD false R5 R3 R2 R5); I (LDR R9 (Off R0 16)); I (SMLAD true R11 R3 R4 R11); I (SMLAD true R11 R12 LR R11);
  I (PKHBT R11 R5 R11 16); I (USUB16 R11 R9 R11); I (LDR R9 (Off R0 20)); I (STR R11 (Off R0 16));
  I (SMUL true true R5 R12 LR); I (SMUAD true R11 R10 R4); I (SMLAD false R5 R10 R2 R5); I (SMLAD false R5 R3 R1 R5);
  I (SMLAD true R11 R3 LR R11); I (PKHBT R11 R5 R11 16); I (USUB16 R11 R9 R11); I (LDR R9 (Off R0 24));
  I (STR R11 (Off R0 20)); I (SMUAD false R5 R10 R1); I (SMUAD true R11 R10 LR); I (SMLA true true R5 R3 LR R5);
  I (PKHBT R11 R5 R11 16); I (USUB16 R11 R9 R11); I (LDR R9 (Off R0 28)); I (LDR R1 (Post SP 4));
  I (STR R11 (Off R0 24)); I (SMUL true true R11 R10 LR); I (MOVT R11 0); I (USUB16 R11 R9 R11);
  I (STR R11 (Off R0 28)); I (LDR R7 (Off R1 32)); I (LDR R8 (Off R1 36)); I (LDR R4 (Off R1 40));
  I (LDR LR (Off R1 44)); I (STR R1 (Pre SP (-4))); I (LDR R9 (Off R0 16)); I (LDR R5 (Off R0 20));
  I (MOV R11 (Lsr R9 16)); I (SMLA false false R9 R7 R6 R9); I (SMLAD true R11 R7 R6 R11); I (PKHBT R9 R9 R11 16);
  I (STR R9 (Off R0 16)); I (MOV R11 (Lsr R5 16)); I (SMLAD true R11 R7 R12 R11); I (SMLA false false R5 R7 R12 R5);
  I (PKHBT R9 R8 R7 0); I (SMLAD true R11 R8 R6 R11); I (SMLAD false R5 R9 R6 R5); I (PKHBT R11 R5 R11 16);
  I (LDR R5 (Off R0 24)); I (STR R11 (Off R0 20)); I (MOV R11 (Lsr R5 16)); I (SMLA false false R5 R3 R7 R5);
  I (SMLAD true R11 R3 R7 R11); I (SMLAD false R5 R9 R12 R5); I (PKHBT R2 R4 R8 0); I (SMLAD false R5 R2 R6 R5);
  I (SMLAD true R11 R8 R12 R11); I (SMLAD true R11 R4 R6 R11); I (PKHBT R11 R5 R11 16); I (LDR R5 (Off R0 28));
  I (STR R11 (Off R0 24)); I (MOV R11 (Lsr R5 16)); I (SMLA false false R5 R10 R7 R5); I (SMLAD true R11 R10 R7 R11);
  I (SMLAD false R5 R12 R2 R5); I (SMLAD false R5 R3 R9 R5); I (PKHBT R1 LR R4 0); I (SMLAD false R5 R6 R1 R5);
  I (SMLAD true R11 R3 R8 R11); I (SMLAD true R11 R12 R4 R11); I (SMLAD true R11 R6 LR R11); I (PKHBT R11 R5 R11 16);
  I (STR R11 (Off R0 28)); I (SMUL true true R5 R6 LR); I (SMUAD true R11 R10 R8); I (SMLAD false R5 R12 R1 R5);
  I (SMLAD false R5 R10 R9 R5); I (SMLAD false R5 R3 R2 R5); I (LDR R9 (Off R0 0)); I (SMLAD true R11 R3 R4 R11);
  I (SMLAD true R11 R12 LR R11); I (PKHBT R11 R5 R11 16); I (USUB16 R11 R9 R11); I (LDR R9 (Off R0 4));
  I (STR R11 (Off R0 0)); I (SMUL true true R5 R12 LR); I (SMUAD true R11 R10 R4); I (SMLAD false R5 R10 R2 R5);
  I (SMLAD false R5 R3 R1 R5); I (SMLAD true R11 R3 LR R11); I (PKHBT R11 R5 R11 16); I (USUB16 R11 R9 R11);
  I (LDR R9 (Off R0 8)); I (STR R11 (Off R0 4)); I (SMUAD false R5 R10 R1); I (SMUAD true R11 R10 LR);
  I (SMLA true true R5 R3 LR R5); I (PKHBT R11 R5 R11 16); I (USUB16 R11 R9 R11); I (LDR R9 (Off R0 12));
  I (LDR R1 (Post SP 4)); I (STR R11 (Off R0 8)); I (SMUL true true R11 R10 LR); I (MOVT R11 0);
  I (USUB16 R11 R9 R11); I (STR R11 (Off R0 12)); I (LDR LR (Post SP 4)); I (BX LR) ].

(** kara.s:310-1440. *)
Definition kara_strd_mem_asm : list stmt := [
  I (PUSH [R4; R5; R6; R7; R8; R9; R10; R11; LR]); I (LDR R4 (Off R0 0)); I (LDR R5 (Off R0 4)); I (LDR R6 (Off R0 8));
  I (LDR R7 (Off R0 12)); I (LDR R8 (Off R0 16)); I (LDR R9 (Off R0 20)); I (LDR R10 (Off R0 24));
  I (LDR R11 (Off R0 28)); I (PKHBT R12 R4 R5 16); I (STR R12 (Off R0 0)); I (PKHTB LR R5 R4 16);
  I (STR LR (Off R2 64)); I (UADD16 R12 R12 LR); I (STR R12 (Off R2 0)); I (PKHBT R12 R6 R7 16);
  I (STR R12 (Off R0 4)); I (PKHTB LR R7 R6 16); I (STR LR (Off R2 68)); I (UADD16 R12 R12 LR);
  I (STR R12 (Off R2 4)); I (PKHBT R12 R8 R9 16); I (STR R12 (Off R0 8)); I (PKHTB LR R9 R8 16);
  I (STR LR (Off R2 72)); I (UADD16 R12 R12 LR); I (STR R12 (Off R2 8)); I (PKHBT R12 R10 R11 16);
  I (STR R12 (Off R0 12)); I (PKHTB LR R11 R10 16); I (STR LR (Off R2 76)); I (UADD16 R12 R12 LR);
  I (STR R12 (Off R2 12)); I (LDR R4 (Off R0 32)); I (LDR R5 (Off R0 36)); I (LDR R6 (Off R0 40));
  I (LDR R7 (Off R0 44)); I (LDR R8 (Off R0 48)); I (LDR R9 (Off R0 52)); I (LDR R10 (Off R0 56));
  I (LDR R11 (Off R0 60)); I (PKHBT R12 R4 R5 16); I (STR R12 (Off R0 16)); I (PKHTB LR R5 R4 16);
  I (STR LR (Off R2 80)); I (UADD16 R12 R12 LR); I (STR R12 (Off R2 16)); I (PKHBT R12 R6 R7 16);
  I (STR R12 (Off R0 20)); I (PKHTB LR R7 R6 16); I (STR LR (Off R2 84)); I (UADD16 R12 R12 LR);
  I (STR R12 (Off R2 20)); I (PKHBT R12 R8 R9 16); I (STR R12 (Off R0 24)); I (PKHTB LR R9 R8 16);
  I (STR LR (Off R2 88)); I (UADD16 R12 R12 LR); I (STR R12 (Off R2 24)); I (PKHBT R12 R10 R11 16);
  I (STR R12 (Off R0 28)); I (PKHTB LR R11 R10 16); I (STR LR (Off R2 92)); I (UADD16 R12 R12 LR);
  I (STR R12 (Off R2 28)); I (LDR R4 (Off R0 64)); I (LDR R5 (Off R0 68)); I (LDR R6 (Off R0 72));
  I (LDR R7 (Off R0 76)); I (LDR R8 (Off R0 80)); I (LDR R9 (Off R0 84)); I (LDR R10 (Off R0 88));
  I (LDR R11 (Off R0 92)); I (PKHBT R12 R4 R5 16); I (STR R12 (Off R0 32)); I (PKHTB LR R5 R4 16);
  I (STR LR (Off R2 96)); I (UADD16 R12 R12 LR); I (STR R12 (Off R2 32)); I (PKHBT R12 R6 R7 16);
  I (STR R12 (Off R0 36)); I (PKHTB LR R7 R6 16); I (STR LR (Off R2 100)); I (UADD16 R12 R12 LR);
  I (STR R12 (Off R2 36)); I (PKHBT R12 R8 R9 16); I (STR R12 (Off R0 40)); I (PKHTB LR R9 R8 16);
  I (STR LR (Off R2 104)); I (UADD16 R12 R12 LR); I (STR R12 (Off R2 40)); I (PKHBT R12 R10 R11 16);
  I (STR R12 (Off R0 44)); I (PKHTB LR R11 R10 16); I (STR LR (Off R2 108)); I (UADD16 R12 R12 LR);
  I (STR R12 (Off R2 44)); I (LDR R4 (Off R0 96)); I (LDR R5 (Off R0 100)); I (LDR R6 (Off R0 104));
  I (LDR R7 (Off R0 108)); I (LDR R8 (Off R0 112)); I (LDR R9 (Off R0 116)); I (LDR R10 (Off R0 120));
  I (LDR R11 (Off R0 124)); I (PKHBT R12 R4 R5 16); I (STR R12 (Off R0 48)); I (PKHTB LR R5 R4 16);
  I (STR LR (Off R2 112)); I (UADD16 R12 R12 LR); I (STR R12 (Off R2 48)); I (PKHBT R12 R6 R7 16);
  I (STR R12 (Off R0 52)); I (PKHTB LR R7 R6 16); I (STR LR (Off R2 116)); I (UADD16 R12 R12 LR);
  I (STR R12 (Off R2 52)); I (PKHBT R12 R8 R9 16); I (STR R12 (Off R0 56)); I (PKHTB LR R9 R8 16);
  I (STR LR (Off R2 120)); I (UADD16 R12 R12 LR); I (STR R12 (Off R2 56)); I (PKHBT R12 R10 R11 16);
  I (STR R12 (Off R0 60)); I (PKHTB LR R11 R10 16); I (STR LR (Off R2 124)); I (UADD16 R12 R12 LR);
  I (STR R12 (Off R2 60)); I (LDR R4 (Off R1 0)); I (LDR R5 (Off R1 4)); I (LDR R6 (Off R1 8));
  I (LDR R7 (Off R1 12)); I (LDR R8 (Off R1 16)); I (LDR R9 (Off R1 20)); I (LDR R10 (Off R1 24));
  I (LDR R11 (Off R1 28)); I (PKHBT R12 R4 R5 16); I (STR R12 (Off R1 0)); I (PKHTB LR R5 R4 16);
  I (STR LR (Off R3 0)); I (UADD16 R12 R12 LR); I (STR R12 (Off R0 64)); I (PKHBT R12 R6 R7 16);
  I (STR R12 (Off R1 4)); I (PKHTB LR R7 R6 16); I (STR LR (Off R3 4)); I (UADD16 R12 R12 LR);
  I (STR R12 (Off R0 68)); I (PKHBT R12 R8 R9 16); I (STR R12 (Off R1 8)); I (PKHTB LR R9 R8 16);
  I (STR LR (Off R3 8)); I (UADD16 R12 R12 LR); I (STR R12 (Off R0 72)); I (PKHBT R12 R10 R11 16);
  I (STR R12 (Off R1 12)); I (PKHTB LR R11 R10 16); I (STR LR (Off R3 12)); I (UADD16 R12 R12 LR);
  I (STR R12 (Off R0 76)); I (LDR R4 (Off R1 32)); I (LDR R5 (Off R1 36)); I (LDR R6 (Off R1 40));
  I (LDR R7 (Off R1 44)); I (LDR R8 (Off R1 48)); I (LDR R9 (Off R1 52)); I (LDR R10 (Off R1 56));
  I (LDR R11 (Off R1 60)); I (PKHBT R12 R4 R5 16); I (STR R12 (Off R1 16)); I (PKHTB LR R5 R4 16);
  I (STR LR (Off R3 16)); I (UADD16 R12 R12 LR); I (STR R12 (Off R0 80)); I (PKHBT R12 R6 R7 16);
  I (STR R12 (Off R1 20)); I (PKHTB LR R7 R6 16); I (STR LR (Off R3 20)); I (UADD16 R12 R12 LR);
  I (STR R12 (Off R0 84)); I (PKHBT R12 R8 R9 16); I (STR R12 (Off R1 24)); I (PKHTB LR R9 R8 16);
  I (STR LR (Off R3 24)); I (UADD16 R12 R12 LR); I (STR R12 (Off R0 88)); I (PKHBT R12 R10 R11 16);
  I (STR R12 (Off R1 28)); I (PKHTB LR R11 R10 16); I (STR LR (Off R3 28)); I (UADD16 R12 R12 LR);
  I (STR R12 (Off R0 92)); I (LDR R4 (Off R1 64)); I (LDR R5 (Off R1 68)); I (LDR R6 (Off R1 72));
  I (LDR R7 (Off R1 76)); I (LDR R8 (Off R1 80)); I (LDR R9 (Off R1 84)); I (LDR R10 (Off R1 88));
  I (LDR R11 (Off R1 92)); I (PKHBT R12 R4 R5 16); I (STR R12 (Off R1 32)); I (PKHTB LR R5 R4 16);
  I (STR LR (Off R3 32)); I (UADD16 R12 R12 LR); I (STR R12 (Off R0 96)); I (PKHBT R12 R6 R7 16);
  I (STR R12 (Off R1 36)); I (PKHTB LR R7 R6 16); I (STR LR (Off R3 36)); I (UADD16 R12 R12 LR);
  I (STR R12 (Off R0 100)); I (PKHBT R12 R8 R9 16); I (STR R12 (Off R1 40)); I (PKHTB LR R9 R8 16);
  I (STR LR (Off R3 40)); I (UADD16 R12 R12 LR); I (STR R12 (Off R0 104)); I (PKHBT R12 R10 R11 16);
  I (STR R12 (Off R1 44)); I (PKHTB LR R11 R10 16); I (STR LR (Off R3 44)); I (UADD16 R12 R12 LR);
  I (STR R12 (Off R0 108)); I (LDR R4 (Off R1 96)); I (LDR R5 (Off R1 100)); I (LDR R6 (Off R1 104));
  I (LDR R7 (Off R1 108)); I (LDR R8 (Off R1 112)); I (LDR R9 (Off R1 116)); I (LDR R10 (Off R1 120));
  I (LDR R11 (Off R1 124)); I (PKHBT R12 R4 R5 16); I (STR R12 (Off R1 48)); I (PKHTB LR R5 R4 16);
  I (STR LR (Off R3 48)); I (UADD16 R12 R12 LR); I (STR R12 (Off R0 112)); I (PKHBT R12 R6 R7 16);
  I (STR R12 (Off R1 52)); I (PKHTB LR R7 R6 16); I (STR LR (Off R3 52)); I (UADD16 R12 R12 LR);
  I (STR R12 (Off R0 116)); I (PKHBT R12 R8 R9 16); I (STR R12 (Off R1 56)); I (PKHTB LR R9 R8 16);
  I (STR LR (Off R3 56)); I (UADD16 R12 R12 LR); I (STR R12 (Off R0 120)); I (PKHBT R12 R10 R11 16);
  I (STR R12 (Off R1 60)); I (PKHTB LR R11 R10 16); I (STR LR (Off R3 60)); I (UADD16 R12 R12 LR);
  I (STR R12 (Off R0 124)); I (LDR R4 (Off R0 0)); I (LDR R5 (Off R0 4)); I (LDR R6 (Off R0 8));
  I (LDR R7 (Off R0 12)); I (LDR R8 (Off R0 16)); I (LDR R9 (Off R0 20)); I (LDR R10 (Off R0 24));
  I (LDR R11 (Off R0 28)); I (PKHBT R12 R4 R5 16); I (STR R12 (Off R0 0)); I (PKHTB LR R5 R4 16);
  I (STR LR (Off R3 64)); I (UADD16 R12 R12 LR); I (STR R12 (Off R1 64)); I (PKHBT R12 R6 R7 16);
  I (STR R12 (Off R0 4)); I (PKHTB LR R7 R6 16); I (STR LR (Off R3 68)); I (UADD16 R12 R12 LR);
  I (STR R12 (Off R1 68)); I (PKHBT R12 R8 R9 16); I (STR R12 (Off R0 8)); I (PKHTB LR R9 R8 16);
  I (STR LR (Off R3 72)); I (UADD16 R12 R12 LR); I (STR R12 (Off R1 72)); I (PKHBT R12 R10 R11 16);
  I (STR R12 (Off R0 12)); I (PKHTB LR R11 R10 16); I (STR LR (Off R3 76)); I (UADD16 R12 R12 LR);
  I (STR R12 (Off R1 76)); I (LDR R4 (Off R0 32)); I (LDR R5 (Off R0 36)); I (LDR R6 (Off R0 40));
  I (LDR R7 (Off R0 44)); I (LDR R8 (Off R0 48)); I (LDR R9 (Off R0 52)); I (LDR R10 (Off R0 56));
  I (LDR R11 (Off R0 60)); I (PKHBT R12 R4 R5 16); I (STR R12 (Off R0 16)); I (PKHTB LR R5 R4 16);
  I (STR LR (Off R3 80)); I (UADD16 R12 R12 LR); I (STR R12 (Off R1 80)); I (PKHBT R12 R6 R7 16);
  I (STR R12 (Off R0 20)); I (PKHTB LR R7 R6 16); I (STR LR (Off R3 84)); I (UADD16 R12 R12 LR);
  I (STR R12 (Off R1 84)); I (PKHBT R12 R8 R9 16); I (STR R12 (Off R0 24)); I (PKHTB LR R9 R8 16);
  I (STR LR (Off R3 88)); I (UADD16 R12 R12 LR); I (STR R12 (Off R1 88)); I (PKHBT R12 R10 R11 16);
  I (STR R12 (Off R0 28)); I (PKHTB LR R11 R10 16); I (STR LR (Off R3 92)); I (UADD16 R12 R12 LR);
  I (STR R12 (Off R1 92)); I (LDR R4 (Off R1 0)); I (LDR R5 (Off R1 4)); I (LDR R6 (Off R1 8));
  I (LDR R7 (Off R1 12)); I (LDR R8 (Off R1 16)); I (LDR R9 (Off R1 20)); I (LDR R10 (Off R1 24));
  I (LDR R11 (Off R1 28)); I (PKHBT R12 R4 R5 16); I (STR R12 (Off R0 32)); I (PKHTB LR R5 R4 16);
  I (STR LR (Off R3 96)); I (UADD16 R12 R12 LR); I (STR R12 (Off R1 96)); I (PKHBT R12 R6 R7 16);
  I (STR R12 (Off R0 36)); I (PKHTB LR R7 R6 16); I (STR LR (Off R3 100)); I (UADD16 R12 R12 LR);
  I (STR R12 (Off R1 100)); I (PKHBT R12 R8 R9 16); I (STR R12 (Off R0 40)); I (PKHTB LR R9 R8 16);
  I (STR LR (Off R3 104)); I (UADD16 R12 R12 LR); I (STR R12 (Off R1 104)); I (PKHBT R12 R10 R11 16);
  I (STR R12 (Off R0 44)); I (PKHTB LR R11 R10 16); I (STR LR (Off R3 108)); I (UADD16 R12 R12 LR);
  I (STR R12 (Off R1 108)); I (LDR R4 (Off R1 32)); I (LDR R5 (Off R1 36)); I (LDR R6 (Off R1 40));
  I (LDR R7 (Off R1 44)); I (LDR R8 (Off R1 48)); I (LDR R9 (Off R1 52)); I (LDR R10 (Off R1 56));
  I (LDR R11 (Off R1 60)); I (PKHBT R12 R4 R5 16); I (STR R12 (Off R0 48)); I (PKHTB LR R5 R4 16);
  I (STR LR (Off R3 112)); I (UADD16 R12 R12 LR); I (STR R12 (Off R1 112)); I (PKHBT R12 R6 R7 16);
  I (STR R12 (Off R0 52)); I (PKHTB LR R7 R6 16); I (STR LR (Off R3 116)); I (UADD16 R12 R12 LR);
  I (STR R12 (Off R1 116)); I (PKHBT R12 R8 R9 16); I (STR R12 (Off R0 56)); I (PKHTB LR R9 R8 16);
  I (STR LR (Off R3 120)); I (UADD16 R12 R12 LR); I (STR R12 (Off R1 120)); I (PKHBT R12 R10 R11 16);
  I (STR R12 (Off R0 60)); I (PKHTB LR R11 R10 16); I (STR LR (Off R3 124)); I (UADD16 R12 R12 LR);
  I (STR R12 (Off R1 124)); I (PUSH [R0; R1; R2; R3]); I (MOV R12 (Rg R0)); I (MOV R0 (Rg R1));
  I (MOV R1 (Rg R12));
  Call schoolbook_gen;
  I (ADD R1 R0 (Imm 64)); I (ADD R0 R0 (Imm 32));
  Call schoolbook_gen;
  I (LDR R12 (Off SP 12)); I (MOV R0 (Rg R1)); I (ADD R1 R12 (Imm 64));
  Call schoolbook_gen;
  I (POP [R0; R1; R2; R3]); I (LDR R4 (Off R1 0)); I (LDR R5 (Off R1 4)); I (LDR R6 (Off R1 32));
  I (LDR R7 (Off R1 36)); I (LDR R8 (Off R1 64)); I (LDR R9 (Off R1 68)); I (LDR R11 (Off R1 66));
  I (USUB16 R6 R6 R4); I (USUB16 R7 R7 R5); I (USUB16 R6 R6 R8); I (USUB16 R7 R7 R9);
  I (MOV R10 (Lsl R8 16)); I (UADD16 R4 R4 R10); I (UADD16 R5 R5 R11); I (PKHBT R12 R4 R6 16);
  I (STR R12 (Off R0 0)); I (PKHTB R12 R6 R4 16); I (STR R12 (Off R0 4)); I (PKHBT R12 R5 R7 16);
  I (STR R12 (Off R0 8)); I (PKHTB R12 R7 R5 16); I (STR R12 (Off R0 12)); I (LDR R4 (Off R1 8));
  I (LDR R5 (Off R1 12)); I (LDR R6 (Off R1 40)); I (LDR R7 (Off R1 44)); I (LDR R8 (Off R1 72));
  I (LDR R9 (Off R1 76)); I (LDR R10 (Off R1 70)); I (LDR R11 (Off R1 74)); I (USUB16 R6 R6 R4);
  I (USUB16 R7 R7 R5); I (USUB16 R6 R6 R8); I (USUB16 R7 R7 R9); I (UADD16 R4 R4 R10);
  I (UADD16 R5 R5 R11); I (PKHBT R12 R4 R6 16); I (STR R12 (Off R0 16)); I (PKHTB R12 R6 R4 16);
  I (STR R12 (Off R0 20)); I (PKHBT R12 R5 R7 16); I (STR R12 (Off R0 24)); I (PKHTB R12 R7 R5 16);
  I (STR R12 (Off R0 28)); I (LDR R4 (Off R1 16)); I (LDR R5 (Off R1 20)); I (LDR R6 (Off R1 48));
  I (LDR R7 (Off R1 52)); I (LDR R8 (Off R1 80)); I (LDR R9 (Off R1 84)); I (LDR R10 (Off R1 78));
  I (LDR R11 (Off R1 82)); I (USUB16 R6 R6 R4); I (USUB16 R7 R7 R5); I (USUB16 R6 R6 R8);
  I (USUB16 R7 R7 R9); I (UADD16 R4 R4 R10); I (UADD16 R5 R5 R11); I (PKHBT R12 R4 R6 16);
  I (STR R12 (Off R0 32)); I (PKHTB R12 R6 R4 16); I (STR R12 (Off R0 36)); I (PKHBT R12 R5 R7 16);
  I (STR R12 (Off R0 40)); I (PKHTB R12 R7 R5 16); I (STR R12 (Off R0 44)); I (LDR R4 (Off R1 24));
  I (LDR R5 (Off R1 28)); I (LDR R6 (Off R1 56)); I (LDR R7 (Off R1 60)); I (LDR R8 (Off R1 88));
  I (LDR R9 (Off R1 92)); I (LDR R10 (Off R1 86)); I (LDR R11 (Off R1 90)); I (USUB16 R6 R6 R4);
  I (USUB16 R7 R7 R5); I (USUB16 R6 R6 R8); I (USUB16 R7 R7 R9); I (UADD16 R4 R4 R10);
  I (UADD16 R5 R5 R11); I (PKHBT R12 R4 R6 16); I (STR R12 (Off R0 48)); I (PKHTB R12 R6 R4 16);
  I (STR R12 (Off R0 52)); I (LDRH R4 (Off R0 0)); I (PKHBT R12 R5 R7 16); I (STR R12 (Off R0 56));
  I (PKHTB R12 R7 R5 16); I (STR R12 (Off R0 60)); I (SUB R12 R4 (Asr R9 16)); I (STRH R12 (Off R0 0));
  I (LDR R4 (Off R2 0)); I (LDR R5 (Off R2 4)); I (LDR R6 (Off R2 8)); I (LDR R7 (Off R2 12));
  I (LDR R8 (Off R2 16)); I (LDR R9 (Off R2 20)); I (LDR R10 (Off R2 24)); I (LDR R11 (Off R2 28));
  I (PKHBT R12 R4 R5 16); I (STR R12 (Off R1 0)); I (PKHTB LR R5 R4 16); I (STR LR (Off R3 64));
  I (UADD16 R12 R12 LR); I (STR R12 (Off R1 64)); I (PKHBT R12 R6 R7 16); I (STR R12 (Off R1 4));
  I (PKHTB LR R7 R6 16); I (STR LR (Off R3 68)); I (UADD16 R12 R12 LR); I (STR R12 (Off R1 68));
  I (PKHBT R12 R8 R9 16); I (STR R12 (Off R1 8)); I (PKHTB LR R9 R8 16); I (STR LR (Off R3 72));
  I (UADD16 R12 R12 LR); I (STR R12 (Off R1 72)); I (PKHBT R12 R10 R11 16); I (STR R12 (Off R1 12));
  I (PKHTB LR R11 R10 16); I (STR LR (Off R3 76)); I (UADD16 R12 R12 LR); I (STR R12 (Off R1 76));
  I (LDR R4 (Off R2 32)); I (LDR R5 (Off R2 36)); I (LDR R6 (Off R2 40)); I (LDR R7 (Off R2 44));
  I (LDR R8 (Off R2 48)); I (LDR R9 (Off R2 52)); I (LDR R10 (Off R2 56)); I (LDR R11 (Off R2 60));
  I (PKHBT R12 R4 R5 16); I (STR R12 (Off R1 16)); I (PKHTB LR R5 R4 16); I (STR LR (Off R3 80));
  I (UADD16 R12 R12 LR); I (STR R12 (Off R1 80)); I (PKHBT R12 R6 R7 16); I (STR R12 (Off R1 20));
  I (PKHTB LR R7 R6 16); I (STR LR (Off R3 84)); I (UADD16 R12 R12 LR); I (STR R12 (Off R1 84));
  I (PKHBT R12 R8 R9 16); I (STR R12 (Off R1 24)); I (PKHTB LR R9 R8 16); I (STR LR (Off R3 88));
  I (UADD16 R12 R12 LR); I (STR R12 (Off R1 88)); I (PKHBT R12 R10 R11 16); I (STR R12 (Off R1 28));
  I (PKHTB LR R11 R10 16); I (STR LR (Off R3 92)); I (UADD16 R12 R12 LR); I (STR R12 (Off R1 92));
  I (LDR R4 (Off R0 64)); I (LDR R5 (Off R0 68)); I (LDR R6 (Off R0 72)); I (LDR R7 (Off R0 76));
  I (LDR R8 (Off R0 80)); I (LDR R9 (Off R0 84)); I (LDR R10 (Off R0 88)); I (LDR R11 (Off R0 92));
  I (PKHBT R12 R4 R5 16); I (STR R12 (Off R1 32)); I (PKHTB LR R5 R4 16); I (STR LR (Off R3 96));
  I (UADD16 R12 R12 LR); I (STR R12 (Off R1 96)); I (PKHBT R12 R6 R7 16); I (STR R12 (Off R1 36));
  I (PKHTB LR R7 R6 16); I (STR LR (Off R3 100)); I (UADD16 R12 R12 LR); I (STR R12 (Off R1 100));
  I (PKHBT R12 R8 R9 16); I (STR R12 (Off R1 40)); I (PKHTB LR R9 R8 16); I (STR LR (Off R3 104));
  I (UADD16 R12 R12 LR); I (STR R12 (Off R1 104)); I (PKHBT R12 R10 R11 16); I (STR R12 (Off R1 44));
  I (PKHTB LR R11 R10 16); I (STR LR (Off R3 108)); I (UADD16 R12 R12 LR); I (STR R12 (Off R1 108));
  I (LDR R4 (Off R0 96)); I (LDR R5 (Off R0 100)); I (LDR R6 (Off R0 104)); I (LDR R7 (Off R0 108));
  I (LDR R8 (Off R0 112)); I (LDR R9 (Off R0 116)); I (LDR R10 (Off R0 120)); I (LDR R11 (Off R0 124));
  I (PKHBT R12 R4 R5 16); I (STR R12 (Off R1 48)); I (PKHTB LR R5 R4 16); I (STR LR (Off R3 112));
  I (UADD16 R12 R12 LR); I (STR R12 (Off R1 112)); I (PKHBT R12 R6 R7 16); I (STR R12 (Off R1 52));
  I (PKHTB LR R7 R6 16); I (STR LR (Off R3 116)); I (UADD16 R12 R12 LR); I (STR R12 (Off R1 116));
  I (PKHBT R12 R8 R9 16); I (STR R12 (Off R1 56)); I (PKHTB LR R9 R8 16); I (STR LR (Off R3 120));
  I (UADD16 R12 R12 LR); I (STR R12 (Off R1 120)); I (PKHBT R12 R10 R11 16); I (STR R12 (Off R1 60));
  I (PKHTB LR R11 R10 16); I (STR LR (Off R3 124)); I (UADD16 R12 R12 LR); I (STR R12 (Off R1 124));
  I (PUSH [R0; R1; R2; R3]); I (MOV R0 (Rg R2));
  Call schoolbook_gen;
  I (ADD R1 R1 (Imm 64)); I (ADD R0 R0 (Imm 32));
  Call schoolbook_gen;
  I (LDR R12 (Off SP 12)); I (SUB R0 R1 (Imm 64)); I (ADD R1 R12 (Imm 64));
  Call schoolbook_gen;
  I (POP [R0; R1; R2; R3]); I (LDR R4 (Off R2 0)); I (LDR R5 (Off R2 4)); I (LDR R6 (Off R2 32));
  I (LDR R7 (Off R2 36)); I (LDR R8 (Off R1 0)); I (LDR R9 (Off R1 4)); I (LDR R11 (Off R1 2));
  I (USUB16 R6 R6 R4); I (USUB16 R7 R7 R5); I (USUB16 R6 R6 R8); I (USUB16 R7 R7 R9);
  I (MOV R10 (Lsl R8 16)); I (UADD16 R4 R4 R10); I (UADD16 R5 R5 R11); I (PKHBT R12 R4 R6 16);
  I (STR R12 (Off R0 64)); I (PKHTB R12 R6 R4 16); I (STR R12 (Off R0 68)); I (PKHBT R12 R5 R7 16);
  I (STR R12 (Off R0 72)); I (PKHTB R12 R7 R5 16); I (STR R12 (Off R0 76)); I (LDR R4 (Off R2 8));
  I (LDR R5 (Off R2 12)); I (LDR R6 (Off R2 40)); I (LDR R7 (Off R2 44)); I (LDR R8 (Off R1 8));
  I (LDR R9 (Off R1 12)); I (LDR R10 (Off R1 6)); I (LDR R11 (Off R1 10)); I (USUB16 R6 R6 R4);
  I (USUB16 R7 R7 R5); I (USUB16 R6 R6 R8); I (USUB16 R7 R7 R9); I (UADD16 R4 R4 R10);
  I (UADD16 R5 R5 R11); I (PKHBT R12 R4 R6 16); I (STR R12 (Off R0 80)); I (PKHTB R12 R6 R4 16);
  I (STR R12 (Off R0 84)); I (PKHBT R12 R5 R7 16); I (STR R12 (Off R0 88)); I (PKHTB R12 R7 R5 16);
  I (STR R12 (Off R0 92)); I (LDR R4 (Off R2 16)); I (LDR R5 (Off R2 20)); I (LDR R6 (Off R2 48));
  I (LDR R7 (Off R2 52)); I (LDR R8 (Off R1 16)); I (LDR R9 (Off R1 20)); I (LDR R10 (Off R1 14));
  I (LDR R11 (Off R1 18)); I (USUB16 R6 R6 R4); I (USUB16 R7 R7 R5); I (USUB16 R6 R6 R8);
  I (USUB16 R7 R7 R9); I (UADD16 R4 R4 R10); I (UADD16 R5 R5 R11); I (PKHBT R12 R4 R6 16);
  I (STR R12 (Off R0 96)); I (PKHTB R12 R6 R4 16); I (STR R12 (Off R0 100)); I (PKHBT R12 R5 R7 16);
  I (STR R12 (Off R0 104)); I (PKHTB R12 R7 R5 16); I (STR R12 (Off R0 108)); I (LDR R4 (Off R2 24));
  I (LDR R5 (Off R2 28)); I (LDR R6 (Off R2 56)); I (LDR R7 (Off R2 60)); I (LDR R8 (Off R1 24));
  I (LDR R9 (Off R1 28)); I (LDR R10 (Off R1 22)); I (LDR R11 (Off R1 26)); I (USUB16 R6 R6 R4);
  I (USUB16 R7 R7 R5); I (USUB16 R6 R6 R8); I (USUB16 R7 R7 R9); I (UADD16 R4 R4 R10);
  I (UADD16 R5 R5 R11); I (PKHBT R12 R4 R6 16); I (STR R12 (Off R0 112)); I (PKHTB R12 R6 R4 16);
  I (STR R12 (Off R0 116)); I (LDRH R4 (Off R0 64)); I (PKHBT R12 R5 R7 16); I (STR R12 (Off R0 120));
  I (PKHTB R12 R7 R5 16); I (STR R12 (Off R0 124)); I (SUB R12 R4 (Asr R9 16)); I (STRH R12 (Off R0 64));
  I (LDR R4 (Off R2 64)); I (LDR R5 (Off R2 68)); I (LDR R6 (Off R2 72)); I (LDR R7 (Off R2 76));
  I (LDR R8 (Off R2 80)); I (LDR R9 (Off R2 84)); I (LDR R10 (Off R2 88)); I (LDR R11 (Off R2 92));
  I (PKHBT R12 R4 R5 16); I (STR R12 (Off R1 0)); I (PKHTB LR R5 R4 16); I (STR LR (Off R3 64));
  I (UADD16 R12 R12 LR); I (STR R12 (Off R1 64)); I (PKHBT R12 R6 R7 16); I (STR R12 (Off R1 4));
  I (PKHTB LR R7 R6 16); I (STR LR (Off R3 68)); I (UADD16 R12 R12 LR); I (STR R12 (Off R1 68));
  I (PKHBT R12 R8 R9 16); I (STR R12 (Off R1 8)); I (PKHTB LR R9 R8 16); I (STR LR (Off R3 72));
  I (UADD16 R12 R12 LR); I (STR R12 (Off R1 72)); I (PKHBT R12 R10 R11 16); I (STR R12 (Off R1 12));
  I (PKHTB LR R11 R10 16); I (STR LR (Off R3 76)); I (UADD16 R12 R12 LR); I (STR R12 (Off R1 76));
  I (LDR R4 (Off R2 96)); I (LDR R5 (Off R2 100)); I (LDR R6 (Off R2 104)); I (LDR R7 (Off R2 108));
  I (LDR R8 (Off R2 112)); I (LDR R9 (Off R2 116)); I (LDR R10 (Off R2 120)); I (LDR R11 (Off R2 124));
  I (PKHBT R12 R4 R5 16); I (STR R12 (Off R1 16)); I (PKHTB LR R5 R4 16); I (STR LR (Off R3 80));
  I (UADD16 R12 R12 LR); I (STR R12 (Off R1 80)); I (PKHBT R12 R6 R7 16); I (STR R12 (Off R1 20));
  I (PKHTB LR R7 R6 16); I (STR LR (Off R3 84)); I (UADD16 R12 R12 LR); I (STR R12 (Off R1 84));
  I (PKHBT R12 R8 R9 16); I (STR R12 (Off R1 24)); I (PKHTB LR R9 R8 16); I (STR LR (Off R3 88));
  I (UADD16 R12 R12 LR); I (STR R12 (Off R1 88)); I (PKHBT R12 R10 R11 16); I (STR R12 (Off R1 28));
  I (PKHTB LR R11 R10 16); I (STR LR (Off R3 92)); I (UADD16 R12 R12 LR); I (STR R12 (Off R1 92));
  I (LDR R4 (Off R3 0)); I (LDR R5 (Off R3 4)); I (LDR R6 (Off R3 8)); I (LDR R7 (Off R3 12));
  I (LDR R8 (Off R3 16)); I (LDR R9 (Off R3 20)); I (LDR R10 (Off R3 24)); I (LDR R11 (Off R3 28));
  I (PKHBT R12 R4 R5 16); I (STR R12 (Off R1 32)); I (PKHTB LR R5 R4 16); I (STR LR (Off R3 96));
  I (UADD16 R12 R12 LR); I (STR R12 (Off R1 96)); I (PKHBT R12 R6 R7 16); I (STR R12 (Off R1 36));
  I (PKHTB LR R7 R6 16); I (STR LR (Off R3 100)); I (UADD16 R12 R12 LR); I (STR R12 (Off R1 100));
  I (PKHBT R12 R8 R9 16); I (STR R12 (Off R1 40)); I (PKHTB LR R9 R8 16); I (STR LR (Off R3 104));
  I (UADD16 R12 R12 LR); I (STR R12 (Off R1 104)); I (PKHBT R12 R10 R11 16); I (STR R12 (Off R1 44));
  I (PKHTB LR R11 R10 16); I (STR LR (Off R3 108)); I (UADD16 R12 R12 LR); I (STR R12 (Off R1 108));
  I (LDR R4 (Off R3 32)); I (LDR R5 (Off R3 36)); I (LDR R6 (Off R3 40)); I (LDR R7 (Off R3 44));
  I (LDR R8 (Off R3 48)); I (LDR R9 (Off R3 52)); I (LDR R10 (Off R3 56)); I (LDR R11 (Off R3 60));
  I (PKHBT R12 R4 R5 16); I (STR R12 (Off R1 48)); I (PKHTB LR R5 R4 16); I (STR LR (Off R3 112));
  I (UADD16 R12 R12 LR); I (STR R12 (Off R1 112)); I (PKHBT R12 R6 R7 16); I (STR R12 (Off R1 52));
  I (PKHTB LR R7 R6 16); I (STR LR (Off R3 116)); I (UADD16 R12 R12 LR); I (STR R12 (Off R1 116));
  I (PKHBT R12 R8 R9 16); I (STR R12 (Off R1 56)); I (PKHTB LR R9 R8 16); I (STR LR (Off R3 120));
  I (UADD16 R12 R12 LR); I (STR R12 (Off R1 120)); I (PKHBT R12 R10 R11 16); I (STR R12 (Off R1 60));
  I (PKHTB LR R11 R10 16); I (STR LR (Off R3 124)); I (UADD16 R12 R12 LR); I (STR R12 (Off R1 124));
  I (PUSH [R0; R1; R2; R3]); I (MOV R0 (Rg R2));
  Call schoolbook_gen;
  I (ADD R1 R1 (Imm 64)); I (ADD R0 R0 (Imm 32));
  Call schoolbook_gen;
  I (LDR R12 (Off SP 12)); I (SUB R0 R1 (Imm 64)); I (ADD R1 R12 (Imm 64));
  Call schoolbook_gen;
  I (POP [R0; R1; R2; R3]); I (LDR R4 (Off R2 0)); I (LDR R5 (Off R2 4)); I (LDR R6 (Off R2 32));
  I (LDR R7 (Off R2 36)); I (LDR R8 (Off R1 0)); I (LDR R9 (Off R1 4)); I (LDR R11 (Off R1 2));
  I (USUB16 R6 R6 R4); I (USUB16 R7 R7 R5); I (USUB16 R6 R6 R8); I (USUB16 R7 R7 R9);
  I (MOV R10 (Lsl R8 16)); I (UADD16 R4 R4 R10); I (UADD16 R5 R5 R11); I (PKHBT R12 R4 R6 16);
  I (STR R12 (Off R1 64)); I (PKHTB R12 R6 R4 16); I (STR R12 (Off R1 68)); I (PKHBT R12 R5 R7 16);
  I (STR R12 (Off R1 72)); I (PKHTB R12 R7 R5 16); I (STR R12 (Off R1 76)); I (LDR R4 (Off R2 8));
  I (LDR R5 (Off R2 12)); I (LDR R6 (Off R2 40)); I (LDR R7 (Off R2 44)); I (LDR R8 (Off R1 8));
  I (LDR R9 (Off R1 12)); I (LDR R10 (Off R1 6)); I (LDR R11 (Off R1 10)); I (USUB16 R6 R6 R4);
  I (USUB16 R7 R7 R5); I (USUB16 R6 R6 R8); I (USUB16 R7 R7 R9); I (UADD16 R4 R4 R10);
  I (UADD16 R5 R5 R11); I (PKHBT R12 R4 R6 16); I (STR R12 (Off R1 80)); I (PKHTB R12 R6 R4 16);
  I (STR R12 (Off R1 84)); I (PKHBT R12 R5 R7 16); I (STR R12 (Off R1 88)); I (PKHTB R12 R7 R5 16);
  I (STR R12 (Off R1 92)); I (LDR R4 (Off R2 16)); I (LDR R5 (Off R2 20)); I (LDR R6 (Off R2 48));
  I (LDR R7 (Off R2 52)); I (LDR R8 (Off R1 16)); I (LDR R9 (Off R1 20)); I (LDR R10 (Off R1 14));
  I (LDR R11 (Off R1 18)); I (USUB16 R6 R6 R4); I (USUB16 R7 R7 R5); I (USUB16 R6 R6 R8);
  I (USUB16 R7 R7 R9); I (UADD16 R4 R4 R10); I (UADD16 R5 R5 R11); I (PKHBT R12 R4 R6 16);
  I (STR R12 (Off R1 96)); I (PKHTB R12 R6 R4 16); I (STR R12 (Off R1 100)); I (PKHBT R12 R5 R7 16);
  I (STR R12 (Off R1 104)); I (PKHTB R12 R7 R5 16); I (STR R12 (Off R1 108)); I (LDR R4 (Off R2 24));
  I (LDR R5 (Off R2 28)); I (LDR R6 (Off R2 56)); I (LDR R7 (Off R2 60)); I (LDR R8 (Off R1 24));
  I (LDR R9 (Off R1 28)); I (LDR R10 (Off R1 22)); I (LDR R11 (Off R1 26)); I (USUB16 R6 R6 R4);
  I (USUB16 R7 R7 R5); I (USUB16 R6 R6 R8); I (USUB16 R7 R7 R9); I (UADD16 R4 R4 R10);
  I (UADD16 R5 R5 R11); I (PKHBT R12 R4 R6 16); I (STR R12 (Off R1 112)); I (PKHTB R12 R6 R4 16);
  I (STR R12 (Off R1 116)); I (LDRH R4 (Off R1 64)); I (PKHBT R12 R5 R7 16); I (STR R12 (Off R1 120));
  I (PKHTB R12 R7 R5 16); I (STR R12 (Off R1 124)); I (SUB R12 R4 (Asr R9 16)); I (STRH R12 (Off R1 64));
  I (LDR R4 (Off R0 0)); I (LDR R5 (Off R0 4)); I (LDR R6 (Off R0 64)); I (LDR R7 (Off R0 68));
  I (LDR R8 (Off R1 64)); I (LDR R9 (Off R1 68)); I (LDR R11 (Off R1 66)); I (USUB16 R6 R6 R4);
  I (USUB16 R7 R7 R5); I (USUB16 R6 R6 R8); I (USUB16 R7 R7 R9); I (MOV R10 (Lsl R8 16));
  I (UADD16 R4 R4 R10); I (UADD16 R5 R5 R11); I (PKHBT R12 R4 R6 16); I (STR R12 (Off R2 0));
  I (PKHTB R12 R6 R4 16); I (STR R12 (Off R2 4)); I (PKHBT R12 R5 R7 16); I (STR R12 (Off R2 8));
  I (PKHTB R12 R7 R5 16); I (STR R12 (Off R2 12)); I (LDR R4 (Off R0 8)); I (LDR R5 (Off R0 12));
  I (LDR R6 (Off R0 72)); I (LDR R7 (Off R0 76)); I (LDR R8 (Off R1 72)); I (LDR R9 (Off R1 76));
  I (LDR R10 (Off R1 70)); I (LDR R11 (Off R1 74)); I (USUB16 R6 R6 R4); I (USUB16 R7 R7 R5);
  I (USUB16 R6 R6 R8); I (USUB16 R7 R7 R9); I (UADD16 R4 R4 R10); I (UADD16 R5 R5 R11);
  I (PKHBT R12 R4 R6 16); I (STR R12 (Off R2 16)); I (PKHTB R12 R6 R4 16); I (STR R12 (Off R2 20));
  I (PKHBT R12 R5 R7 16); I (STR R12 (Off R2 24)); I (PKHTB R12 R7 R5 16); I (STR R12 (Off R2 28));
  I (LDR R4 (Off R0 16)); I (LDR R5 (Off R0 20)); I (LDR R6 (Off R0 80)); I (LDR R7 (Off R0 84));
  I (LDR R8 (Off R1 80)); I (LDR R9 (Off R1 84)); I (LDR R10 (Off R1 78)); I (LDR R11 (Off R1 82));
  I (USUB16 R6 R6 R4); I (USUB16 R7 R7 R5); I (USUB16 R6 R6 R8); I (USUB16 R7 R7 R9);
  I (UADD16 R4 R4 R10); I (UADD16 R5 R5 R11); I (PKHBT R12 R4 R6 16); I (STR R12 (Off R2 32));
  I (PKHTB R12 R6 R4 16); I (STR R12 (Off R2 36)); I (PKHBT R12 R5 R7 16); I (STR R12 (Off R2 40));
  I (PKHTB R12 R7 R5 16); I (STR R12 (Off R2 44)); I (LDR R4 (Off R0 24)); I (LDR R5 (Off R0 28));
  I (LDR R6 (Off R0 88)); I (LDR R7 (Off R0 92)); I (LDR R8 (Off R1 88)); I (LDR R9 (Off R1 92));
  I (LDR R10 (Off R1 86)); I (LDR R11 (Off R1 90)); I (USUB16 R6 R6 R4); I (USUB16 R7 R7 R5);
  I (USUB16 R6 R6 R8); I (USUB16 R7 R7 R9); I (UADD16 R4 R4 R10); I (UADD16 R5 R5 R11);
  I (PKHBT R12 R4 R6 16); I (STR R12 (Off R2 48)); I (PKHTB R12 R6 R4 16); I (STR R12 (Off R2 52));
  I (PKHBT R12 R5 R7 16); I (STR R12 (Off R2 56)); I (PKHTB R12 R7 R5 16); I (STR R12 (Off R2 60));
  I (LDR R4 (Off R0 32)); I (LDR R5 (Off R0 36)); I (LDR R6 (Off R0 96)); I (LDR R7 (Off R0 100));
  I (LDR R8 (Off R1 96)); I (LDR R9 (Off R1 100)); I (LDR R10 (Off R1 94)); I (LDR R11 (Off R1 98));
  I (USUB16 R6 R6 R4); I (USUB16 R7 R7 R5); I (USUB16 R6 R6 R8); I (USUB16 R7 R7 R9);
  I (UADD16 R4 R4 R10); I (UADD16 R5 R5 R11); I (PKHBT R12 R4 R6 16); I (STR R12 (Off R2 64));
  I (PKHTB R12 R6 R4 16); I (STR R12 (Off R2 68)); I (PKHBT R12 R5 R7 16); I (STR R12 (Off R2 72));
  I (PKHTB R12 R7 R5 16); I (STR R12 (Off R2 76)); I (LDR R4 (Off R0 40)); I (LDR R5 (Off R0 44));
  I (LDR R6 (Off R0 104)); I (LDR R7 (Off R0 108)); I (LDR R8 (Off R1 104)); I (LDR R9 (Off R1 108));
  I (LDR R10 (Off R1 102)); I (LDR R11 (Off R1 106)); I (USUB16 R6 R6 R4); I (USUB16 R7 R7 R5);
  I (USUB16 R6 R6 R8); I (USUB16 R7 R7 R9); I (UADD16 R4 R4 R10); I (UADD16 R5 R5 R11);
  I (PKHBT R12 R4 R6 16); I (STR R12 (Off R2 80)); I (PKHTB R12 R6 R4 16); I (STR R12 (Off R2 84));
  I (PKHBT R12 R5 R7 16); I (STR R12 (Off R2 88)); I (PKHTB R12 R7 R5 16); I (STR R12 (Off R2 92));
  I (LDR R4 (Off R0 48)); I (LDR R5 (Off R0 52)); I (LDR R6 (Off R0 112)); I (LDR R7 (Off R0 116));
  I (LDR R8 (Off R1 112)); I (LDR R9 (Off R1 116)); I (LDR R10 (Off R1 110)); I (LDR R11 (Off R1 114));
  I (USUB16 R6 R6 R4); I (USUB16 R7 R7 R5); I (USUB16 R6 R6 R8); I (USUB16 R7 R7 R9);
  I (UADD16 R4 R4 R10); I (UADD16 R5 R5 R11); I (PKHBT R12 R4 R6 16); I (STR R12 (Off R2 96));
  I (PKHTB R12 R6 R4 16); I (STR R12 (Off R2 100)); I (PKHBT R12 R5 R7 16); I (STR R12 (Off R2 104));
  I (PKHTB R12 R7 R5 16); I (STR R12 (Off R2 108)); I (LDR R4 (Off R0 56)); I (LDR R5 (Off R0 60));
  I (LDR R6 (Off R0 120)); I (LDR R7 (Off R0 124)); I (LDR R8 (Off R1 120)); I (LDR R9 (Off R1 124));
  I (LDR R10 (Off R1 118)); I (LDR R11 (Off R1 122)); I (USUB16 R6 R6 R4); I (USUB16 R7 R7 R5);
  I (USUB16 R6 R6 R8); I (USUB16 R7 R7 R9); I (UADD16 R4 R4 R10); I (UADD16 R5 R5 R11);
  I (PKHBT R12 R4 R6 16); I (STR R12 (Off R2 112)); I (PKHTB R12 R6 R4 16); I (STR R12 (Off R2 116));
  I (LDRH R4 (Off R2 0)); I (PKHBT R12 R5 R7 16); I (STR R12 (Off R2 120)); I (PKHTB R12 R7 R5 16);
  I (STR R12 (Off R2 124)); I (SUB R12 R4 (Asr R9 16)); I (STRH R12 (Off R2 0)); I (POP [R4; R5; R6; R7; R8; R9; R10; R11; LR]);
  I (BX LR) ].

