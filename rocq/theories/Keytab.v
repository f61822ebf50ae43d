(** Model of the crate kerberos_keytab (keytab files, version 0x0502). *)
From Verif Require Import Base Nom.

(** kerberos_keytab/src/key_block.rs:20-23 [KeyBlock] *)
Record kt_key_block := KtKeyBlock { ktk_type : N; ktk_value : bytes }.

(** kerberos_keytab/src/keytab_entry.rs:24-32 [KeytabEntry].
    A [CountedOctetString] (counted_octet_string.rs:25-29) is its byte vector. *)
Record keytab_entry := KeytabEntry {
  kte_realm : bytes;
  kte_components : list bytes;
  kte_name_type : N;
  kte_timestamp : N;
  kte_vno8 : N;
  kte_key : kt_key_block;
  kte_vno : option N
}.

(** kerberos_keytab/src/keytab.rs:14-18 [Keytab] *)
Record keytab := Keytab { kt_kversion : N; kt_version : N; kt_entries : list keytab_entry }.

(** counted_octet_string.rs:38-43 [build]: [data.len() as u16], then the data. *)
Definition kt_string_build (d : bytes) : bytes := to_be 2 (as_u16 (len d)) ++ d.

(** counted_octet_string.rs:7-9,48-51 [parse] *)
Definition kt_string_parse : parser bytes := length_data (be_uint 2).

(** key_block.rs:31-39 [build] *)
Definition kt_key_build (k : kt_key_block) : bytes :=
  to_be 2 (ktk_type k) ++ to_be 2 (as_u16 (len (ktk_value k))) ++ ktk_value k.

(** key_block.rs:5-7,44-51 [parse] *)
Definition kt_key_parse : parser kt_key_block := fun raw =>
  '(r, t) <- be_uint 2 raw ;;
  '(r, v) <- length_data (be_uint 2) r ;;
  Ok (r, KtKeyBlock t v).

(** keytab_entry.rs:97-116: everything after the size field. *)
Definition kt_entry_body (e : keytab_entry) : bytes :=
  to_be 2 (as_u16 (len (kte_components e))) ++
  kt_string_build (kte_realm e) ++
  concat_map kt_string_build (kte_components e) ++
  to_be 4 (kte_name_type e) ++
  to_be 4 (kte_timestamp e) ++
  to_be 1 (kte_vno8 e) ++
  kt_key_build (kte_key e) ++
  match kte_vno e with Some v => to_be 4 v | None => [] end.

(** keytab_entry.rs:97-124 [build]: [bytes.len() as i32] and its [to_be_bytes]
    (the same four bytes as those of [as u32]), then the body. *)
Definition kt_entry_build (e : keytab_entry) : bytes :=
  to_be 4 (as_u32 (len (kt_entry_body e))) ++ kt_entry_body e.

(** keytab_entry.rs:127-139 [Default] *)
Definition kt_entry_default : keytab_entry :=
  KeytabEntry [] [] 0 0 0 (KtKeyBlock 0 []) (Some 0%N).

(** keytab_entry.rs:69-94: decoding of the size-delimited slice [raw_entry]. *)
Definition kt_body_parse (raw_entry : bytes) : res nerr keytab_entry :=
  '(r, n) <- be_uint 2 raw_entry ;;
  '(r, realm) <- kt_string_parse r ;;
  '(r, comps) <- many_n n kt_string_parse r ;;
  '(r, nt) <- be_uint 4 r ;;
  '(r, ts) <- be_uint 4 r ;;
  '(r, v8) <- be_uint 1 r ;;
  '(r, key) <- kt_key_parse r ;;
  vno <- match r with
         | [] => Ok None
         | _ :: _ => '(_, v) <- be_uint 4 r ;; Ok (Some v)
         end ;;
  Ok (KeytabEntry realm comps nt ts v8 key vno).

(** keytab_entry.rs:58-94 [parse].  [oc] says whether the build has integer
    overflow checks (debug profile: true; release profile: false).  For
    [size = i32::MIN] the expression [-size] (line 63) overflows: a panic with
    checks; without, it wraps to [i32::MIN] and [as usize] makes it larger
    than any slice, so [take] fails with [Err::Error]. *)
Definition kt_entry_parse (oc : bool) : parser keytab_entry := fun raw =>
  '(raw, size) <- be_i32 raw ;;
  if (size <? 0)%Z then
    if (size =? -2147483648)%Z then (if oc then Panic else Err NError)
    else
      '(raw, _) <- take (Z.to_N (- size)) raw ;;
      Ok (raw, kt_entry_default)
  else
    '(raw, raw_entry) <- take (Z.to_N size) raw ;;
    e <- kt_body_parse raw_entry ;;
    Ok (raw, e).

(** keytab.rs:29-39 [build] *)
Definition keytab_build (k : keytab) : bytes :=
  to_be 1 (kt_kversion k) ++ to_be 1 (kt_version k) ++ concat_map kt_entry_build (kt_entries k).

(** keytab.rs:41-47 [parse] *)
Definition keytab_parse (oc : bool) : parser keytab := fun raw =>
  '(r, kv) <- be_uint 1 raw ;;
  '(r, v) <- be_uint 1 r ;;
  '(r, es) <- many0 (kt_entry_parse oc) r ;;
  Ok (r, Keytab kv v es).
