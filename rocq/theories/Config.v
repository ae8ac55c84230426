(** Model of src/he/config.c and he_safe_strncpy (utils.c). *)
From Verif Require Import Base Codes.

(** config.c:22-33 he_internal_config_is_string_length_okay, 35-37
    he_internal_config_is_string_too_long.  [value] is the memory from the
    string pointer on (it must contain the NUL within 51 bytes or 51 bytes). *)
Definition config_too_long (value : bytes) : res bool :=
  do n <- strnlen value (HE_CONFIG_TEXT_FIELD_LENGTH + 1);
  Val (HE_CONFIG_TEXT_FIELD_LENGTH <? n).

(** config.c:39-47 he_internal_config_is_empty_string *)
Definition config_is_empty (value : bytes) : res bool :=
  do b <- ld8 value 0; Val (b =? 0).

(** config.c:49-70 he_internal_set_config_string (non-NULL pointers) *)
Definition set_config_string (field value : bytes) : res (Z * bytes) :=
  do e <- config_is_empty value;
  if e then Val (HE_ERR_EMPTY_STRING, field) else
  do l <- config_too_long value;
  if l then Val (HE_ERR_STRING_TOO_LONG, field) else
  do f <- strncpy field value HE_CONFIG_TEXT_FIELD_LENGTH;
  do f <- st8 f (HE_CONFIG_TEXT_FIELD_LENGTH - 1) 0;
  Val (HE_SUCCESS, f).

(** utils.c:123-129 he_safe_strncpy (non-NULL pointers, dst_size <> 0) *)
Definition safe_strncpy (dst src : bytes) (dst_size : Z) : res bytes :=
  do d <- strncpy dst src (dst_size - 1);
  st8 d (dst_size - 1) 0.
