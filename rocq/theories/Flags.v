(** Flags: what a RAR file block says about its compression (rescene/rar.py). *)
From Verif Require Import Base.

(** rar.py:990-997 *)
Definition DICT64 : N := 0x00.
Definition DICT128 : N := 0x20.
Definition DICT256 : N := 0x40.
Definition DICT512 : N := 0x60.
Definition DICT1024 : N := 0x80.
Definition DICT2048 : N := 0xa0.
Definition DICT4096 : N := 0xc0.

(** rar.py:1114-1127 get_compression_parameter; KeyError for other methods *)
Definition compression_parameter (method : N) : result text :=
  if method =? 0x30 then Ok (str "-m0")
  else if method =? 0x31 then Ok (str "-m1")
  else if method =? 0x32 then Ok (str "-m2")
  else if method =? 0x33 then Ok (str "-m3")
  else if method =? 0x34 then Ok (str "-m4")
  else if method =? 0x35 then Ok (str "-m5")
  else Err KeyError.

(** rar.py:1129-1149 get_dictionary_size_parameter *)
Definition dict_parameter (flags : N) : text :=
  if N.land flags DICT4096 =? DICT4096 then str "-mdG"
  else if N.land flags DICT2048 =? DICT2048 then str "-mdF"
  else if N.land flags DICT1024 =? DICT1024 then str "-mdE"
  else if N.land flags DICT512 =? DICT512 then str "-mdD"
  else if N.land flags DICT256 =? DICT256 then str "-mdC"
  else if N.land flags DICT128 =? DICT128 then str "-mdB"
  else if N.land flags DICT64 =? DICT64 then str "-mdA"
  else [].

(** rar.py:285-294 DICTIONARY_NAME and 1154-1155 get_dictionary *)
Definition dictionary_name (k : N) : result text :=
  if k =? 0 then Ok (str "Dictionary size 64 KiB")
  else if k =? 1 then Ok (str "Dictionary size 128 KiB")
  else if k =? 2 then Ok (str "Dictionary size 256 KiB")
  else if k =? 3 then Ok (str "Dictionary size 512 KiB")
  else if k =? 4 then Ok (str "Dictionary size 1024 KiB")
  else if k =? 5 then Ok (str "Dictionary size 2048 KiB")
  else if k =? 6 then Ok (str "Dictionary size 4096 KiB")
  else if k =? 7 then Ok (str "File is a directory")
  else Err KeyError.
Definition get_dictionary (flags : N) : result text := dictionary_name (N.shiftr (N.land flags 0x00e0) 5).

(** rar.py:1157-1171 get_dict_size; None when no test holds *)
Definition dict_size (flags : N) : option N :=
  if N.land flags DICT4096 =? DICT4096 then Some (4096 * 1024)
  else if N.land flags DICT2048 =? DICT2048 then Some (2048 * 1024)
  else if N.land flags DICT1024 =? DICT1024 then Some (1024 * 1024)
  else if N.land flags DICT512 =? DICT512 then Some (512 * 1024)
  else if N.land flags DICT256 =? DICT256 then Some (256 * 1024)
  else if N.land flags DICT128 =? DICT128 then Some (128 * 1024)
  else if N.land flags DICT64 =? DICT64 then Some (64 * 1024)
  else None.
