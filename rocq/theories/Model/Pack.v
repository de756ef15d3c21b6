(** Model of pack_unpack.c (reference and uSaber-90s variant).

    [sts t a i es] is the sequence of assignments [a[i] = e0; a[i+1] = e1; ...].
    Loop counters and array offsets ([size_t]) are unbounded integers; they stay
    below 2^16, so no wrap-around is lost.  Output arrays are passed with their old
    contents and returned. *)
From Coq Require Import ZArith List.
From Verif Require Import Lib.Arr Lib.CInt Lib.CMon Model.Params.
Import ListNotations.
Local Open Scope Z_scope.
Local Open Scope M_scope.

(** Reference_Implementation_KEM/pack_unpack.c:5-36, Variants/uSaber-90s/ref/pack_unpack.c:5-36, case 3. *)
Definition POLT2BS_3 (bytes data : list Z) : M (list Z) :=
  for_ 0 (256 / 8) (fun j bytes =>
    let D k := Idx U16 data (8 * j + k) in
    sts U8 bytes (3 * j) [
      (D 0 .& #0x7) .| ((D 1 .& #0x7) .<< #3) .| ((D 2 .& #0x3) .<< #6);
      ((D 2 .>> #2) .& #0x01) .| ((D 3 .& #0x7) .<< #1) .| ((D 4 .& #0x7) .<< #4) .| ((D 5 .& #0x01) .<< #7);
      ((D 5 .>> #1) .& #0x03) .| ((D 6 .& #0x7) .<< #2) .| ((D 7 .& #0x7) .<< #5)
    ]%C) bytes.

(** Reference_Implementation_KEM/pack_unpack.c:5-36, Variants/uSaber-90s/ref/pack_unpack.c:5-36, case 4. *)
Definition POLT2BS_4 (bytes data : list Z) : M (list Z) :=
  for_ 0 (256 / 2) (fun j bytes =>
    let D k := Idx U16 data (2 * j + k) in
    sts U8 bytes (1 * j) [
      (D 0 .& #0x0f) .| ((D 1 .& #0x0f) .<< #4)
    ]%C) bytes.

(** Reference_Implementation_KEM/pack_unpack.c:5-36, Variants/uSaber-90s/ref/pack_unpack.c:5-36, case 6. *)
Definition POLT2BS_6 (bytes data : list Z) : M (list Z) :=
  for_ 0 (256 / 4) (fun j bytes =>
    let D k := Idx U16 data (4 * j + k) in
    sts U8 bytes (3 * j) [
      (D 0 .& #0x3f) .| ((D 1 .& #0x03) .<< #6);
      ((D 1 .>> #2) .& #0x0f) .| ((D 2 .& #0x0f) .<< #4);
      ((D 2 .>> #4) .& #0x03) .| ((D 3 .& #0x3f) .<< #2)
    ]%C) bytes.

(** Reference_Implementation_KEM/pack_unpack.c:38-76, Variants/uSaber-90s/ref/pack_unpack.c:38-76, case 3. *)
Definition BS2POLT_3 (bytes data : list Z) : M (list Z) :=
  for_ 0 (256 / 8) (fun j data =>
    let B k := Idx U8 bytes (3 * j + k) in
    sts U16 data (8 * j) [
      B 0 .& #0x07;
      (B 0 .>> #3) .& #0x07;
      ((B 0 .>> #6) .& #0x03) .| ((B 1 .& #0x01) .<< #2);
      (B 1 .>> #1) .& #0x07;
      (B 1 .>> #4) .& #0x07;
      ((B 1 .>> #7) .& #0x01) .| ((B 2 .& #0x03) .<< #1);
      ((B 2 .>> #2) .& #0x07);
      ((B 2 .>> #5) .& #0x07)
    ]%C) data.

(** Reference_Implementation_KEM/pack_unpack.c:38-76, Variants/uSaber-90s/ref/pack_unpack.c:38-76, case 4. *)
Definition BS2POLT_4 (bytes data : list Z) : M (list Z) :=
  for_ 0 (256 / 2) (fun j data =>
    let B k := Idx U8 bytes (1 * j + k) in
    sts U16 data (2 * j) [
      B 0 .& #0x0f;
      (B 0 .>> #4) .& #0x0f
    ]%C) data.

(** Reference_Implementation_KEM/pack_unpack.c:38-76, Variants/uSaber-90s/ref/pack_unpack.c:38-76, case 6. *)
Definition BS2POLT_6 (bytes data : list Z) : M (list Z) :=
  for_ 0 (256 / 4) (fun j data =>
    let B k := Idx U8 bytes (3 * j + k) in
    sts U16 data (4 * j) [
      B 0 .& #0x3f;
      ((B 0 .>> #6) .& #0x03) .| ((B 1 .& #0x0f) .<< #2);
      ((B 1 .& #0xff) .>> #4) .| ((B 2 .& #0x03) .<< #4);
      ((B 2 .& #0xff) .>> #2)
    ]%C) data.

(** Reference_Implementation_KEM/pack_unpack.c:78-99, Variants/uSaber-90s/ref/pack_unpack.c:78-112, case 13. *)
Definition POLq2BS_13 (bytes data : list Z) : M (list Z) :=
  for_ 0 (256 / 8) (fun j bytes =>
    let D k := Idx U16 data (8 * j + k) in
    sts U8 bytes (13 * j) [
      (D 0 .& #0xff);
      ((D 0 .>> #8) .& #0x1f) .| ((D 1 .& #0x07) .<< #5);
      ((D 1 .>> #3) .& #0xff);
      ((D 1 .>> #11) .& #0x03) .| ((D 2 .& #0x3f) .<< #2);
      ((D 2 .>> #6) .& #0x7f) .| ((D 3 .& #0x01) .<< #7);
      ((D 3 .>> #1) .& #0xff);
      ((D 3 .>> #9) .& #0x0f) .| ((D 4 .& #0x0f) .<< #4);
      ((D 4 .>> #4) .& #0xff);
      ((D 4 .>> #12) .& #0x01) .| ((D 5 .& #0x7f) .<< #1);
      ((D 5 .>> #7) .& #0x3f) .| ((D 6 .& #0x03) .<< #6);
      ((D 6 .>> #2) .& #0xff);
      ((D 6 .>> #10) .& #0x07) .| ((D 7 .& #0x1f) .<< #3);
      ((D 7 .>> #5) .& #0xff)
    ]%C) bytes.

(** Reference_Implementation_KEM/pack_unpack.c:78-99, Variants/uSaber-90s/ref/pack_unpack.c:78-112, case 12. *)
Definition POLq2BS_12 (bytes data : list Z) : M (list Z) :=
  for_ 0 (256 / 2) (fun j bytes =>
    let D k := Idx U16 data (2 * j + k) in
    sts U8 bytes (3 * j) [
      (D 0 .& #0xff);
      ((D 0 .>> #8) .& #0xf) .| ((D 1 .& #0xf) .<< #4);
      ((D 1 .>> #4) .& #0xff)
    ]%C) bytes.

(** Reference_Implementation_KEM/pack_unpack.c:101-117, Variants/uSaber-90s/ref/pack_unpack.c:114-142, case 13. *)
Definition BS2POLq_13 (bytes data : list Z) : M (list Z) :=
  for_ 0 (256 / 8) (fun j data =>
    let B k := Idx U8 bytes (13 * j + k) in
    sts U16 data (8 * j) [
      (B 0 .& #0xff) .| ((B 1 .& #0x1f) .<< #8);
      (B 1 .>> #5 .& #0x07) .| ((B 2 .& #0xff) .<< #3) .| ((B 3 .& #0x03) .<< #11);
      (B 3 .>> #2 .& #0x3f) .| ((B 4 .& #0x7f) .<< #6);
      (B 4 .>> #7 .& #0x01) .| ((B 5 .& #0xff) .<< #1) .| ((B 6 .& #0x0f) .<< #9);
      (B 6 .>> #4 .& #0x0f) .| ((B 7 .& #0xff) .<< #4) .| ((B 8 .& #0x01) .<< #12);
      (B 8 .>> #1 .& #0x7f) .| ((B 9 .& #0x3f) .<< #7);
      (B 9 .>> #6 .& #0x03) .| ((B 10 .& #0xff) .<< #2) .| ((B 11 .& #0x07) .<< #10);
      (B 11 .>> #3 .& #0x1f) .| ((B 12 .& #0xff) .<< #5)
    ]%C) data.

(** Reference_Implementation_KEM/pack_unpack.c:101-117, Variants/uSaber-90s/ref/pack_unpack.c:114-142, case 12. *)
Definition BS2POLq_12 (bytes data : list Z) : M (list Z) :=
  for_ 0 (256 / 2) (fun j data =>
    let B k := Idx U8 bytes (3 * j + k) in
    sts U16 data (2 * j) [
      (B 0 .& #0xff) .| ((B 1 .& #0xf) .<< #8);
      (B 1 .>> #4 .& #0xf) .| ((B 2 .& #0xff) .<< #4)
    ]%C) data.

(** Reference_Implementation_KEM/pack_unpack.c:119-132, Variants/uSaber-90s/ref/pack_unpack.c:144-157. *)
Definition POLp2BS (bytes data : list Z) : M (list Z) :=
  for_ 0 (256 / 4) (fun j bytes =>
    let D k := Idx U16 data (4 * j + k) in
    sts U8 bytes (5 * j) [
      (D 0 .& #0xff);
      ((D 0 .>> #8) .& #0x03) .| ((D 1 .& #0x3f) .<< #2);
      ((D 1 .>> #6) .& #0x0f) .| ((D 2 .& #0x0f) .<< #4);
      ((D 2 .>> #4) .& #0x3f) .| ((D 3 .& #0x03) .<< #6);
      ((D 3 .>> #2) .& #0xff)
    ]%C) bytes.

(** Reference_Implementation_KEM/pack_unpack.c:134-146, Variants/uSaber-90s/ref/pack_unpack.c:159-171. *)
Definition BS2POLp (bytes data : list Z) : M (list Z) :=
  for_ 0 (256 / 4) (fun j data =>
    let B k := Idx U8 bytes (5 * j + k) in
    sts U16 data (4 * j) [
      (B 0 .& #0xff) .| ((B 1 .& #0x03) .<< #8);
      ((B 1 .>> #2) .& #0x3f) .| ((B 2 .& #0x0f) .<< #6);
      ((B 2 .>> #4) .& #0x0f) .| ((B 3 .& #0x3f) .<< #4);
      ((B 3 .>> #6) .& #0x03) .| ((B 4 .& #0xff) .<< #2)
    ]%C) data.

(** pack_unpack.c:5-36: selection by SABER_ET. *)
Definition POLT2BS (c : cfg) : list Z -> list Z -> M (list Z) :=
  match lvl c with Light => POLT2BS_3 | Saber => POLT2BS_4 | Fire => POLT2BS_6 end.

(** pack_unpack.c:38-76: selection by SABER_ET. *)
Definition BS2POLT (c : cfg) : list Z -> list Z -> M (list Z) :=
  match lvl c with Light => BS2POLT_3 | Saber => BS2POLT_4 | Fire => BS2POLT_6 end.

(** pack_unpack.c:78-99 (selection by SABER_EQ in the variant). *)
Definition POLq2BS (c : cfg) : list Z -> list Z -> M (list Z) :=
  if usaber c then POLq2BS_12 else POLq2BS_13.

(** pack_unpack.c:101-117 (selection by SABER_EQ in the variant). *)
Definition BS2POLq (c : cfg) : list Z -> list Z -> M (list Z) :=
  if usaber c then BS2POLq_12 else BS2POLq_13.

(** pack_unpack.c:148-155. *)
Definition POLVECq2BS (c : cfg) (bytes : list Z) (data : list (list Z)) : M (list Z) :=
  for_ 0 (SABER_L c) (fun i bytes =>
    d <- row data i ;;
    at_ bytes (i * SABER_POLYBYTES c) (fun p => POLq2BS c p d)) bytes.

(** pack_unpack.c:157-164. *)
Definition BS2POLVECq (c : cfg) (bytes : list Z) (data : list (list Z)) : M (list (list Z)) :=
  for_ 0 (SABER_L c) (fun i data =>
    p <- ptr bytes (i * SABER_POLYBYTES c) ;;
    d <- row data i ;;
    d <- BS2POLq c p d ;;
    setrow data i d) data.

(** pack_unpack.c:166-173. *)
Definition POLVECp2BS (c : cfg) (bytes : list Z) (data : list (list Z)) : M (list Z) :=
  for_ 0 (SABER_L c) (fun i bytes =>
    d <- row data i ;;
    at_ bytes (i * (SABER_EP * SABER_N / 8)) (fun p => POLp2BS p d)) bytes.

(** pack_unpack.c:175-182. *)
Definition BS2POLVECp (c : cfg) (bytes : list Z) (data : list (list Z)) : M (list (list Z)) :=
  for_ 0 (SABER_L c) (fun i data =>
    p <- ptr bytes (i * (SABER_EP * SABER_N / 8)) ;;
    d <- row data i ;;
    d <- BS2POLp p d ;;
    setrow data i d) data.

(** pack_unpack.c:184-194. *)
Definition BS2POLmsg (bytes data : list Z) : M (list Z) :=
  for_ 0 SABER_KEYBYTES (fun j data =>
    for_ 0 8 (fun i data =>
      st U16 data (j * 8 + i) ((Idx U8 bytes j .>> Bnd U64 0 7 i) .& #0x01)%C) data) data.

(** pack_unpack.c:196-208. *)
Definition POLmsg2BS (bytes data : list Z) : M (list Z) :=
  bytes <- memset bytes 0 SABER_KEYBYTES ;;
  for_ 0 SABER_KEYBYTES (fun j bytes =>
    for_ 0 8 (fun i bytes =>
      st U8 bytes j (Idx U8 bytes j .| ((Idx U16 data (j * 8 + i) .& #0x01) .<< Bnd U64 0 7 i))%C) bytes) bytes.
