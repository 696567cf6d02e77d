(* The texts that the program prints about itself. *)
From Verif.Model Require Import Base Util Float Group Options Json Tmc Station Input Channel Dsp Main Getopt.

Local Open Scope string_scope.
Local Open Scope N_scope.
Local Open Scope list_scope.

(* src/redsea.cc:33-108, line by line, copied by a script *)
Definition usage_lines : list string := [
  "radio_command | redsea [OPTIONS]";
  "redsea [OPTIONS] -r <samplerate> < raw_signal_file.s16";
  "";
  "-b, --input-bits       Same as --input bits (for backwards compatibility).";
  "";
  "-c, --channels CHANS   Number of channels in the raw input signal. Channels are";
  "                       interleaved streams of samples that are demodulated";
  "                       independently.";
  "";
  "-e, --feed-through     Echo the input signal to stdout and print decoded groups";
  "                       to stderr. This only works for raw PCM.";
  "";
  "-E, --bler             Display the average block error rate, or the percentage";
  "                       of blocks that had errors before error correction.";
  "                       Averaged over the last 12 groups. For hex input, this is";
  "                       the percentage of missing blocks.";
  "";
  "-f, --file FILENAME    Read MPX input from a wave file with headers (.wav,";
  "                       .flac, ...). If you have headered wave data via stdin,";
  "                       use '-'. Or you can specify another format with --input.";
  "";
  "-h, --input-hex        Same as --input hex (for backwards compatibility).";
  "";
  "-i, --input FORMAT     Decode input as FORMAT (see the redsea wiki in github";
  "                       for more info).";
  "                         bits Unsynchronized ASCII bit stream (01101011...). All characters";
  "                              but '0' and '1' are ignored.";
  "                         hex  RDS Spy hex format. (Timestamps will be ignored)";
  "                         mpx  MPX as raw mono S16LE PCM. Remember to also specify";
  "                              --samplerate. If you're reading from a sound file with headers";
  "                              (WAV, FLAC, ...) don't specify this.";
  "                         tef  Serial data from the TEF6686 tuner.";
  "";
  "-l, --loctable DIR     Load TMC location table from a directory in TMC Exchange";
  "                       format. This option can be specified multiple times to";
  "                       load several location tables.";
  "";
  "--no-fec               Disable forward error correction; always reject blocks";
  "                       with incorrect syndromes. In noisy conditions, fewer errors";
  "                       will slip through, but also fewer blocks in total. See wiki";
  "                       for discussion.";
  "";
  "-o, --output FORMAT    Print output as FORMAT:";
  "                         hex  RDS Spy hex format.";
  "                         json Newline-delimited JSON (default).";
  "";
  "-p, --show-partial     Under noisy conditions, redsea may not be able to fully";
  "                       receive all information. Multi-group data such as PS";
  "                       names, RadioText, and alternative frequencies are";
  "                       especially vulnerable. This option makes it display them";
  "                       even if not fully received, prefixed with partial_.";
  "";
  "-r, --samplerate RATE  Set sample frequency of raw PCM input in Hz. Will";
  "                       resample if this differs from 171000 Hz.";
  "";
  "-R, --show-raw         Include raw group data as hex in the JSON stream.";
  "";
  "-s, --streams          Decode RDS2 data streams 1, 2, and 3, if they exist.";
  "";
  "-t, --timestamp FORMAT Add time of decoding to JSON groups; see man strftime";
  "                       for formatting options (or try ""%c""). Use ""%f"" to add";
  "                       hundredths of seconds.";
  "";
  "-u, --rbds             RBDS mode; use North American program type names and";
  "                       ""back-calculate"" the station's call sign from its PI";
  "                       code. Note that this calculation gives an incorrect call";
  "                       sign for most stations that transmit TMC.";
  "";
  "-v, --version          Print version string and exit.";
  "";
  "-x, --output-hex       Same as --output hex (for backwards compatibility).";
  ""
].
Definition usage_text : bytes := flat_map (fun l => bs l ++ [10]) usage_lines.

(* src/redsea.cc:110-116.  VERSION comes from the build system, as does DEBUG. *)
Definition version_text (version : bytes) (debug : bool) : bytes :=
  bs "redsea " ++ version ++ (if debug then bs "-debug" else []) ++ bs " by OH2EIQ" ++ [10].

(* src/redsea.cc:205-225, up to the switch: what is on standard output if the program ends there *)
Definition about_itself (version : bytes) (debug : bool) (items : list output_item) : bytes :=
  flat_map (fun s => match s with Usage => usage_text | Main.Version => version_text version debug | _ => [] end) items.
