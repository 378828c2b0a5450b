(** Model of /repo/lib/checksum.h. unsigned int has 32 bits; char is unsigned (meson.build:2). *)
From Verif Require Import Common Crc_Tables.

(** lib/checksum.h:46-50 *)
Definition crc32c (crc : Z) (data : list Z) : Z :=
  fold_left (fun crc d => Z.lxor (nthz crc32c_table (Z.lxor d ((crc >> 24) .& 0xff))) (u32 (crc << 8))) data crc.
(** lib/checksum.h:94-98 *)
Definition crc32LE (crc : Z) (data : list Z) : Z :=
  fold_left (fun crc d => Z.lxor (nthz crc32LE_table (Z.lxor d crc .& 0xff)) (crc >> 8)) data crc.
(** lib/checksum.h:142-144 *)
Definition crc32 (crc : Z) (data : list Z) : Z :=
  fold_left (fun crc d => Z.lxor (nthz crc32_table (Z.lxor (u8 crc) d)) (crc >> 8)) data crc.
(** lib/checksum.h:185-189 *)
Definition crc16 (crc : Z) (data : list Z) : Z :=
  fold_left (fun crc d => Z.lxor (u32 (crc << 8)) (nthz crc16_table (Z.lxor (crc >> 8) d .& 0xff))) data crc.
(** lib/checksum.h:222-226 *)
Definition crc8 (crc : Z) (data : list Z) : Z :=
  fold_left (fun crc d => Z.lxor (nthz crc8_table (Z.lxor d (u8 crc))) (u32 (crc << 8) .& 0xff)) data crc.
