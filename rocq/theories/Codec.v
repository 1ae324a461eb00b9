(** Storage primitives: internal.c 993-1436.

    A file being read is the list of its remaining bytes. XFREAD is assumed to
    return fewer bytes than requested only at the end of the file, XMALLOC to
    succeed for a non-negative size (also for 0, as glibc does) and to fail for a
    negative one (converted to a huge size_t). Left shifts of signed values wrap
    around (gcc); ISO C leaves them undefined when the result is not
    representable, which happens exactly for negative stored values. *)
From Verif Require Import Base.

(** wp11_storage_read: internal.c 1024-1048. A negative [len] skips the loop
    and ends in BUFFER_E. *)
Definition st_read (len : Z) (f : list N) : res (list N * list N) :=
  if (len <? 0)%Z then Err BUFFER_E
  else if (zlen f <? len)%Z then Err BUFFER_E
  else Ok (firstn (Z.to_nat len) f, skipn (Z.to_nat len) f).

(** wp11_storage_write: internal.c 1059-1083. [buf] is the source buffer; the
    result is what is appended to the file. *)
Definition st_write (buf : list N) (len : Z) : res (list N) :=
  if (len <? 0)%Z then Err BUFFER_E
  else if (zlen buf <? len)%Z then Undef UB_read_overflow
  else Ok (firstn (Z.to_nat len) buf).

(** wp11_storage_read_boolean, write_boolean: internal.c 1093-1109. *)
Definition r_bool (f : list N) : res (N * list N) :=
  '(b, f') <- st_read 1 f ;; Ok (nth 0 b 0%N, f').
Definition w_bool (v : N) : list N := [v].

(** num[i] = val >> (8*(n-1-i)) for i = 0..n-1, stored in unsigned char:
    internal.c 1146-1148, 1197-1199, 1247-1249, 1297-1299. [>>] on a negative
    value is arithmetic. *)
Fixpoint w_be (n : nat) (v : Z) : list N :=
  match n with
  | O => []
  | S m => Z.to_N (Z.shiftr v (8 * Z.of_nat m) mod 256) :: w_be m v
  end.

(** *val = num[0]; then *val <<= 8; *val += num[i] for the rest, each step in a
    type whose conversion is [conv]: internal.c 1126-1130, 1228-1232,
    1277-1281. *)
Definition r_be (conv : Z -> Z) (num : list N) : Z :=
  match num with
  | [] => 0%Z
  | b :: t =>
      fold_left (fun acc x => conv (conv (acc * 256) + Z.of_N x))%Z t (Z.of_N b)
  end.

(** wp11_storage_read_int, write_int: internal.c 1119-1153. *)
Definition r_int (f : list N) : res (Z * list N) :=
  '(num, f') <- st_read 4 f ;; Ok (r_be i32 num, f').
Definition w_int (v : Z) : list N := w_be 4 v.

(** wp11_storage_read_word32, write_word32: internal.c 1163-1204. The bytes are
    or-ed as int and converted. *)
Definition r_word32 (f : list N) : res (Z * list N) :=
  '(num, f') <- st_read 4 f ;;
  Ok (u32 (Z.lor (Z.lor (i32 (Z.of_N (nth 0 num 0%N) * 2^24))
                        (Z.of_N (nth 1 num 0%N) * 2^16))
                 (Z.lor (Z.of_N (nth 2 num 0%N) * 2^8) (Z.of_N (nth 3 num 0%N)))), f').
Definition w_word32 (v : Z) : list N := w_be 4 v.

(** wp11_storage_read_ulong, write_ulong: internal.c 1213-1254. *)
Definition r_ulong (f : list N) : res (Z * list N) :=
  '(num, f') <- st_read 8 f ;; Ok (r_be u64 num, f').
Definition w_ulong (v : Z) : list N := w_be 8 v.

(** wp11_storage_read_time, write_time: internal.c 1263-1304. *)
Definition r_time (f : list N) : res (Z * list N) :=
  '(num, f') <- st_read 8 f ;; Ok (r_be i64 num, f').
Definition w_time (v : Z) : list N := w_be 8 v.

(** wp11_storage_read_fixed_array, write_fixed_array (and _string): internal.c
    1315-1334, 1419-1436. The buffer has at least [len] bytes in every call. *)
Definition r_fixed (len : Z) (f : list N) : res (list N * list N) := st_read len f.
Definition w_fixed (buf : list N) (len : Z) : res (list N) := st_write buf len.

(** wp11_storage_read_array: internal.c 1346-1363. *)
Definition r_array (max : Z) (f : list N) : res (list N * list N) :=
  '(len, f1) <- r_word32 f ;;
  if (max <? len)%Z then Err BUFFER_E else st_read (i32 len) f1.

(** wp11_storage_write_array: internal.c 1374-1387; [len] is a word32. *)
Definition w_array (buf : list N) (len : Z) : res (list N) :=
  d <- st_write buf (i32 (u32 len)) ;;
  Ok (w_word32 (u32 len) ++ d).

(** wp11_storage_read_alloc_array: internal.c 1399-1422. *)
Definition r_alloc (f : list N) : res (list N * list N) :=
  '(len, f1) <- r_int f ;;
  if (len <? 0)%Z then Err MEMORY_E else st_read len f1.
