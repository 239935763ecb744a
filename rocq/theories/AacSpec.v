(** * AacSpec: bit layouts of the ADTS header (ISO/IEC 13818-7) and AudioSpecificConfig (ISO/IEC 14496-3). *)
From Verif Require Import Base.

(** Concatenation of fields given as (value, width), most significant first. *)
Definition pack (l : list (Z * Z)) : Z := fold_left (fun acc f => acc * 2 ^ snd f + fst f mod 2 ^ snd f) l 0.

(** adts_fixed_header and adts_variable_header: 56 bits. *)
Definition adts_layout (sync id layer absent profile freq priv chan orig home cbit cstart len full blocks : Z) : Z :=
  pack [(sync, 12); (id, 1); (layer, 2); (absent, 1); (profile, 2); (freq, 4); (priv, 1); (chan, 3); (orig, 1); (home, 1);
        (cbit, 1); (cstart, 1); (len, 13); (full, 11); (blocks, 2)].

(** The MPEG-4 sampling frequency table (14496-3, Table 1.18) and channel configurations (Table 1.19; 8 to 10 are reserved,
    11 is 6.1, 12 is 7.1, 13 is 22.2). *)
Definition std_rates : list Z := [96000; 88200; 64000; 48000; 44100; 32000; 24000; 22050; 16000; 12000; 11025; 8000; 7350].
Definition std_channels : list Z := [0; 1; 2; 3; 4; 5; 6; 8; 0; 0; 0; 7; 8; 24].

(** AudioSpecificConfig starts with 5 bits object type, 4 bits frequency index, 4 bits channel configuration. *)
Definition asc_bytes (aot freq chan rest : Z) : list Z := be_bytes 2 (pack [(aot, 5); (freq, 4); (chan, 4); (rest, 3)]).
