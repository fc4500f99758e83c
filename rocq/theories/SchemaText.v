(** The CycloneDX JSON schemas, as data.  Generated by tools/schema2coq.py from the files
    bom-1.3.schema.json, bom-1.4.schema.json, bom-1.5.schema.json, jsf-0.82.schema.json and
    spdx.schema.json in cyclonedx-bom/test-utils/schema of the repository; see that script for
    what is left out. *)
From Verif Require Import Base ModelTypes Strings Regex Json Schema.
From Coq Require Import ZArith.
Open Scope string_scope.
Open Scope list_scope.
Open Scope bool_scope.

(** ^urn:uuid:[0-9a-f]{8}-[0-9a-f]{4}-[0-9a-f]{4}-[0-9a-f]{4}-[0-9a-f]{12}$ *)
Definition pattern_1 : re := full (seqs [(lit "urn:uuid:"); (rep 8 (RSet (fun c => in_range "0" "9" c ||
  in_range "a" "f" c))); (lit "-"); (rep 4 (RSet (fun c => in_range "0" "9" c || in_range "a" "f" c))); (lit
  "-"); (rep 4 (RSet (fun c => in_range "0" "9" c || in_range "a" "f" c))); (lit "-"); (rep 4 (RSet (fun c =>
  in_range "0" "9" c || in_range "a" "f" c))); (lit "-"); (rep 12 (RSet (fun c => in_range "0" "9" c ||
  in_range "a" "f" c)))]).
(** ^[-+a-z0-9.]+/[-+a-z0-9.]+$ *)
Definition pattern_2 : re := full (seqs [(plus (RSet (fun c => Ascii.eqb c "-" || Ascii.eqb c "+" || in_range
  "a" "z" c || in_range "0" "9" c || Ascii.eqb c "."))); (lit "/"); (plus (RSet (fun c => Ascii.eqb c "-" ||
  Ascii.eqb c "+" || in_range "a" "z" c || in_range "0" "9" c || Ascii.eqb c ".")))]).
(** ^([a-fA-F0-9]{32}|[a-fA-F0-9]{40}|[a-fA-F0-9]{64}|[a-fA-F0-9]{96}|[a-fA-F0-9]{128})$ *)
Definition pattern_3 : re := full (RAlt (rep 32 (RSet (fun c => in_range "a" "f" c || in_range "A" "F" c ||
  in_range "0" "9" c))) (RAlt (rep 40 (RSet (fun c => in_range "a" "f" c || in_range "A" "F" c || in_range "0"
  "9" c))) (RAlt (rep 64 (RSet (fun c => in_range "a" "f" c || in_range "A" "F" c || in_range "0" "9" c)))
  (RAlt (rep 96 (RSet (fun c => in_range "a" "f" c || in_range "A" "F" c || in_range "0" "9" c))) (rep 128
  (RSet (fun c => in_range "a" "f" c || in_range "A" "F" c || in_range "0" "9" c))))))).
(** ^([a-z]{2})(-[A-Z]{2})?$ *)
Definition pattern_4 : re := full (seqs [(rep 2 (RSet (fun c => in_range "a" "z" c))); (opt_re (seqs [(lit
  "-"); (rep 2 (RSet (fun c => in_range "A" "Z" c)))]))]).
(** ^urn:cdx:[0-9a-f]{8}-[0-9a-f]{4}-[0-9a-f]{4}-[0-9a-f]{4}-[0-9a-f]{12}/[1-9][0-9]*$ *)
Definition pattern_5 : re := full (seqs [(lit "urn:cdx:"); (rep 8 (RSet (fun c => in_range "0" "9" c ||
  in_range "a" "f" c))); (lit "-"); (rep 4 (RSet (fun c => in_range "0" "9" c || in_range "a" "f" c))); (lit
  "-"); (rep 4 (RSet (fun c => in_range "0" "9" c || in_range "a" "f" c))); (lit "-"); (rep 4 (RSet (fun c =>
  in_range "0" "9" c || in_range "a" "f" c))); (lit "-"); (rep 12 (RSet (fun c => in_range "0" "9" c ||
  in_range "a" "f" c))); (lit "/"); (RSet (fun c => in_range "1" "9" c)); (RStar (RSet (fun c => in_range "0"
  "9" c)))]).
(** ^urn:cdx:[0-9a-f]{8}-[0-9a-f]{4}-[0-9a-f]{4}-[0-9a-f]{4}-[0-9a-f]{12}/[1-9][0-9]*#.+$ *)
Definition pattern_6 : re := full (seqs [(lit "urn:cdx:"); (rep 8 (RSet (fun c => in_range "0" "9" c ||
  in_range "a" "f" c))); (lit "-"); (rep 4 (RSet (fun c => in_range "0" "9" c || in_range "a" "f" c))); (lit
  "-"); (rep 4 (RSet (fun c => in_range "0" "9" c || in_range "a" "f" c))); (lit "-"); (rep 4 (RSet (fun c =>
  in_range "0" "9" c || in_range "a" "f" c))); (lit "-"); (rep 12 (RSet (fun c => in_range "0" "9" c ||
  in_range "a" "f" c))); (lit "/"); (RSet (fun c => in_range "1" "9" c)); (RStar (RSet (fun c => in_range "0"
  "9" c))); (lit "#"); (plus (RSet (fun c => negb (Ascii.eqb c LF))))]).

(** spdx.schema.json *)
Definition spdx_ids : list string := ["0BSD"; "AAL"; "Abstyles"; "AdaCore-doc"; "Adobe-2006"; "Adobe-Glyph";
  "ADSL"; "AFL-1.1"; "AFL-1.2"; "AFL-2.0"; "AFL-2.1"; "AFL-3.0"; "Afmparse"; "AGPL-1.0"; "AGPL-1.0-only";
  "AGPL-1.0-or-later"; "AGPL-3.0"; "AGPL-3.0-only"; "AGPL-3.0-or-later"; "Aladdin"; "AMDPLPA"; "AML"; "AMPAS";
  "ANTLR-PD"; "ANTLR-PD-fallback"; "Apache-1.0"; "Apache-1.1"; "Apache-2.0"; "APAFML"; "APL-1.0"; "App-s2p";
  "APSL-1.0"; "APSL-1.1"; "APSL-1.2"; "APSL-2.0"; "Arphic-1999"; "Artistic-1.0"; "Artistic-1.0-cl8";
  "Artistic-1.0-Perl"; "Artistic-2.0"; "ASWF-Digital-Assets-1.0"; "ASWF-Digital-Assets-1.1"; "Baekmuk";
  "Bahyph"; "Barr"; "Beerware"; "Bitstream-Charter"; "Bitstream-Vera"; "BitTorrent-1.0"; "BitTorrent-1.1";
  "blessing"; "BlueOak-1.0.0"; "Boehm-GC"; "Borceux"; "Brian-Gladman-3-Clause"; "BSD-1-Clause";
  "BSD-2-Clause"; "BSD-2-Clause-FreeBSD"; "BSD-2-Clause-NetBSD"; "BSD-2-Clause-Patent"; "BSD-2-Clause-Views";
  "BSD-3-Clause"; "BSD-3-Clause-Attribution"; "BSD-3-Clause-Clear"; "BSD-3-Clause-LBNL";
  "BSD-3-Clause-Modification"; "BSD-3-Clause-No-Military-License"; "BSD-3-Clause-No-Nuclear-License";
  "BSD-3-Clause-No-Nuclear-License-2014"; "BSD-3-Clause-No-Nuclear-Warranty"; "BSD-3-Clause-Open-MPI";
  "BSD-4-Clause"; "BSD-4-Clause-Shortened"; "BSD-4-Clause-UC"; "BSD-4.3RENO"; "BSD-4.3TAHOE";
  "BSD-Advertising-Acknowledgement"; "BSD-Attribution-HPND-disclaimer"; "BSD-Protection"; "BSD-Source-Code";
  "BSL-1.0"; "BUSL-1.1"; "bzip2-1.0.5"; "bzip2-1.0.6"; "C-UDA-1.0"; "CAL-1.0";
  "CAL-1.0-Combined-Work-Exception"; "Caldera"; "CATOSL-1.1"; "CC-BY-1.0"; "CC-BY-2.0"; "CC-BY-2.5";
  "CC-BY-2.5-AU"; "CC-BY-3.0"; "CC-BY-3.0-AT"; "CC-BY-3.0-DE"; "CC-BY-3.0-IGO"; "CC-BY-3.0-NL";
  "CC-BY-3.0-US"; "CC-BY-4.0"; "CC-BY-NC-1.0"; "CC-BY-NC-2.0"; "CC-BY-NC-2.5"; "CC-BY-NC-3.0";
  "CC-BY-NC-3.0-DE"; "CC-BY-NC-4.0"; "CC-BY-NC-ND-1.0"; "CC-BY-NC-ND-2.0"; "CC-BY-NC-ND-2.5";
  "CC-BY-NC-ND-3.0"; "CC-BY-NC-ND-3.0-DE"; "CC-BY-NC-ND-3.0-IGO"; "CC-BY-NC-ND-4.0"; "CC-BY-NC-SA-1.0";
  "CC-BY-NC-SA-2.0"; "CC-BY-NC-SA-2.0-DE"; "CC-BY-NC-SA-2.0-FR"; "CC-BY-NC-SA-2.0-UK"; "CC-BY-NC-SA-2.5";
  "CC-BY-NC-SA-3.0"; "CC-BY-NC-SA-3.0-DE"; "CC-BY-NC-SA-3.0-IGO"; "CC-BY-NC-SA-4.0"; "CC-BY-ND-1.0";
  "CC-BY-ND-2.0"; "CC-BY-ND-2.5"; "CC-BY-ND-3.0"; "CC-BY-ND-3.0-DE"; "CC-BY-ND-4.0"; "CC-BY-SA-1.0";
  "CC-BY-SA-2.0"; "CC-BY-SA-2.0-UK"; "CC-BY-SA-2.1-JP"; "CC-BY-SA-2.5"; "CC-BY-SA-3.0"; "CC-BY-SA-3.0-AT";
  "CC-BY-SA-3.0-DE"; "CC-BY-SA-3.0-IGO"; "CC-BY-SA-4.0"; "CC-PDDC"; "CC0-1.0"; "CDDL-1.0"; "CDDL-1.1";
  "CDL-1.0"; "CDLA-Permissive-1.0"; "CDLA-Permissive-2.0"; "CDLA-Sharing-1.0"; "CECILL-1.0"; "CECILL-1.1";
  "CECILL-2.0"; "CECILL-2.1"; "CECILL-B"; "CECILL-C"; "CERN-OHL-1.1"; "CERN-OHL-1.2"; "CERN-OHL-P-2.0";
  "CERN-OHL-S-2.0"; "CERN-OHL-W-2.0"; "CFITSIO"; "checkmk"; "ClArtistic"; "Clips"; "CMU-Mach"; "CNRI-Jython";
  "CNRI-Python"; "CNRI-Python-GPL-Compatible"; "COIL-1.0"; "Community-Spec-1.0"; "Condor-1.1";
  "copyleft-next-0.3.0"; "copyleft-next-0.3.1"; "Cornell-Lossless-JPEG"; "CPAL-1.0"; "CPL-1.0"; "CPOL-1.02";
  "Crossword"; "CrystalStacker"; "CUA-OPL-1.0"; "Cube"; "curl"; "D-FSL-1.0"; "diffmark"; "DL-DE-BY-2.0";
  "DOC"; "Dotseqn"; "DRL-1.0"; "DSDP"; "dtoa"; "dvipdfm"; "ECL-1.0"; "ECL-2.0"; "eCos-2.0"; "EFL-1.0";
  "EFL-2.0"; "eGenix"; "Elastic-2.0"; "Entessa"; "EPICS"; "EPL-1.0"; "EPL-2.0"; "ErlPL-1.1"; "etalab-2.0";
  "EUDatagrid"; "EUPL-1.0"; "EUPL-1.1"; "EUPL-1.2"; "Eurosym"; "Fair"; "FDK-AAC"; "Frameworx-1.0";
  "FreeBSD-DOC"; "FreeImage"; "FSFAP"; "FSFUL"; "FSFULLR"; "FSFULLRWD"; "FTL"; "GD"; "GFDL-1.1";
  "GFDL-1.1-invariants-only"; "GFDL-1.1-invariants-or-later"; "GFDL-1.1-no-invariants-only";
  "GFDL-1.1-no-invariants-or-later"; "GFDL-1.1-only"; "GFDL-1.1-or-later"; "GFDL-1.2";
  "GFDL-1.2-invariants-only"; "GFDL-1.2-invariants-or-later"; "GFDL-1.2-no-invariants-only";
  "GFDL-1.2-no-invariants-or-later"; "GFDL-1.2-only"; "GFDL-1.2-or-later"; "GFDL-1.3";
  "GFDL-1.3-invariants-only"; "GFDL-1.3-invariants-or-later"; "GFDL-1.3-no-invariants-only";
  "GFDL-1.3-no-invariants-or-later"; "GFDL-1.3-only"; "GFDL-1.3-or-later"; "Giftware"; "GL2PS"; "Glide";
  "Glulxe"; "GLWTPL"; "gnuplot"; "GPL-1.0"; "GPL-1.0+"; "GPL-1.0-only"; "GPL-1.0-or-later"; "GPL-2.0";
  "GPL-2.0+"; "GPL-2.0-only"; "GPL-2.0-or-later"; "GPL-2.0-with-autoconf-exception";
  "GPL-2.0-with-bison-exception"; "GPL-2.0-with-classpath-exception"; "GPL-2.0-with-font-exception";
  "GPL-2.0-with-GCC-exception"; "GPL-3.0"; "GPL-3.0+"; "GPL-3.0-only"; "GPL-3.0-or-later";
  "GPL-3.0-with-autoconf-exception"; "GPL-3.0-with-GCC-exception"; "Graphics-Gems"; "gSOAP-1.3b";
  "HaskellReport"; "Hippocratic-2.1"; "HP-1986"; "HPND"; "HPND-export-US"; "HPND-Markus-Kuhn";
  "HPND-sell-variant"; "HPND-sell-variant-MIT-disclaimer"; "HTMLTIDY"; "IBM-pibs"; "ICU";
  "IEC-Code-Components-EULA"; "IJG"; "IJG-short"; "ImageMagick"; "iMatix"; "Imlib2"; "Info-ZIP";
  "Inner-Net-2.0"; "Intel"; "Intel-ACPI"; "Interbase-1.0"; "IPA"; "IPL-1.0"; "ISC"; "Jam"; "JasPer-2.0";
  "JPL-image"; "JPNIC"; "JSON"; "Kazlib"; "Knuth-CTAN"; "LAL-1.2"; "LAL-1.3"; "Latex2e";
  "Latex2e-translated-notice"; "Leptonica"; "LGPL-2.0"; "LGPL-2.0+"; "LGPL-2.0-only"; "LGPL-2.0-or-later";
  "LGPL-2.1"; "LGPL-2.1+"; "LGPL-2.1-only"; "LGPL-2.1-or-later"; "LGPL-3.0"; "LGPL-3.0+"; "LGPL-3.0-only";
  "LGPL-3.0-or-later"; "LGPLLR"; "Libpng"; "libpng-2.0"; "libselinux-1.0"; "libtiff"; "libutil-David-Nugent";
  "LiLiQ-P-1.1"; "LiLiQ-R-1.1"; "LiLiQ-Rplus-1.1"; "Linux-man-pages-1-para"; "Linux-man-pages-copyleft";
  "Linux-man-pages-copyleft-2-para"; "Linux-man-pages-copyleft-var"; "Linux-OpenIB"; "LOOP"; "LPL-1.0";
  "LPL-1.02"; "LPPL-1.0"; "LPPL-1.1"; "LPPL-1.2"; "LPPL-1.3a"; "LPPL-1.3c"; "LZMA-SDK-9.11-to-9.20";
  "LZMA-SDK-9.22"; "MakeIndex"; "Martin-Birgmeier"; "metamail"; "Minpack"; "MirOS"; "MIT"; "MIT-0";
  "MIT-advertising"; "MIT-CMU"; "MIT-enna"; "MIT-feh"; "MIT-Festival"; "MIT-Modern-Variant"; "MIT-open-group";
  "MIT-Wu"; "MITNFA"; "Motosoto"; "mpi-permissive"; "mpich2"; "MPL-1.0"; "MPL-1.1"; "MPL-2.0";
  "MPL-2.0-no-copyleft-exception"; "mplus"; "MS-LPL"; "MS-PL"; "MS-RL"; "MTLL"; "MulanPSL-1.0";
  "MulanPSL-2.0"; "Multics"; "Mup"; "NAIST-2003"; "NASA-1.3"; "Naumen"; "NBPL-1.0"; "NCGL-UK-2.0"; "NCSA";
  "Net-SNMP"; "NetCDF"; "Newsletr"; "NGPL"; "NICTA-1.0"; "NIST-PD"; "NIST-PD-fallback"; "NIST-Software";
  "NLOD-1.0"; "NLOD-2.0"; "NLPL"; "Nokia"; "NOSL"; "Noweb"; "NPL-1.0"; "NPL-1.1"; "NPOSL-3.0"; "NRL"; "NTP";
  "NTP-0"; "Nunit"; "O-UDA-1.0"; "OCCT-PL"; "OCLC-2.0"; "ODbL-1.0"; "ODC-By-1.0"; "OFFIS"; "OFL-1.0";
  "OFL-1.0-no-RFN"; "OFL-1.0-RFN"; "OFL-1.1"; "OFL-1.1-no-RFN"; "OFL-1.1-RFN"; "OGC-1.0"; "OGDL-Taiwan-1.0";
  "OGL-Canada-2.0"; "OGL-UK-1.0"; "OGL-UK-2.0"; "OGL-UK-3.0"; "OGTSL"; "OLDAP-1.1"; "OLDAP-1.2"; "OLDAP-1.3";
  "OLDAP-1.4"; "OLDAP-2.0"; "OLDAP-2.0.1"; "OLDAP-2.1"; "OLDAP-2.2"; "OLDAP-2.2.1"; "OLDAP-2.2.2";
  "OLDAP-2.3"; "OLDAP-2.4"; "OLDAP-2.5"; "OLDAP-2.6"; "OLDAP-2.7"; "OLDAP-2.8"; "OLFL-1.3"; "OML";
  "OpenPBS-2.3"; "OpenSSL"; "OPL-1.0"; "OPL-UK-3.0"; "OPUBL-1.0"; "OSET-PL-2.1"; "OSL-1.0"; "OSL-1.1";
  "OSL-2.0"; "OSL-2.1"; "OSL-3.0"; "Parity-6.0.0"; "Parity-7.0.0"; "PDDL-1.0"; "PHP-3.0"; "PHP-3.01";
  "Plexus"; "PolyForm-Noncommercial-1.0.0"; "PolyForm-Small-Business-1.0.0"; "PostgreSQL"; "PSF-2.0";
  "psfrag"; "psutils"; "Python-2.0"; "Python-2.0.1"; "Qhull"; "QPL-1.0"; "QPL-1.0-INRIA-2004"; "Rdisc";
  "RHeCos-1.1"; "RPL-1.1"; "RPL-1.5"; "RPSL-1.0"; "RSA-MD"; "RSCPL"; "Ruby"; "SAX-PD"; "Saxpath"; "SCEA";
  "SchemeReport"; "Sendmail"; "Sendmail-8.23"; "SGI-B-1.0"; "SGI-B-1.1"; "SGI-B-2.0"; "SGP4"; "SHL-0.5";
  "SHL-0.51"; "SimPL-2.0"; "SISSL"; "SISSL-1.2"; "Sleepycat"; "SMLNJ"; "SMPPL"; "SNIA"; "snprintf";
  "Spencer-86"; "Spencer-94"; "Spencer-99"; "SPL-1.0"; "SSH-OpenSSH"; "SSH-short"; "SSPL-1.0";
  "StandardML-NJ"; "SugarCRM-1.1.3"; "SunPro"; "SWL"; "Symlinks"; "TAPR-OHL-1.0"; "TCL"; "TCP-wrappers";
  "TermReadKey"; "TMate"; "TORQUE-1.1"; "TOSL"; "TPDL"; "TPL-1.0"; "TTWL"; "TU-Berlin-1.0"; "TU-Berlin-2.0";
  "UCAR"; "UCL-1.0"; "Unicode-DFS-2015"; "Unicode-DFS-2016"; "Unicode-TOU"; "UnixCrypt"; "Unlicense";
  "UPL-1.0"; "Vim"; "VOSTROM"; "VSL-1.0"; "W3C"; "W3C-19980720"; "W3C-20150513"; "w3m"; "Watcom-1.0";
  "Widget-Workshop"; "Wsuipa"; "WTFPL"; "wxWindows"; "X11"; "X11-distribute-modifications-variant";
  "Xdebug-1.03"; "Xerox"; "Xfig"; "XFree86-1.1"; "xinetd"; "xlock"; "Xnet"; "xpp"; "XSkat"; "YPL-1.0";
  "YPL-1.1"; "Zed"; "Zend-2.0"; "Zimbra-1.3"; "Zimbra-1.4"; "Zlib"; "zlib-acknowledgement"; "ZPL-1.1";
  "ZPL-2.0"; "ZPL-2.1"; "389-exception"; "Asterisk-exception"; "Autoconf-exception-2.0";
  "Autoconf-exception-3.0"; "Autoconf-exception-generic"; "Autoconf-exception-macro"; "Bison-exception-2.2";
  "Bootloader-exception"; "Classpath-exception-2.0"; "CLISP-exception-2.0"; "cryptsetup-OpenSSL-exception";
  "DigiRule-FOSS-exception"; "eCos-exception-2.0"; "Fawkes-Runtime-exception"; "FLTK-exception";
  "Font-exception-2.0"; "freertos-exception-2.0"; "GCC-exception-2.0"; "GCC-exception-3.1"; "GNAT-exception";
  "gnu-javamail-exception"; "GPL-3.0-interface-exception"; "GPL-3.0-linking-exception";
  "GPL-3.0-linking-source-exception"; "GPL-CC-1.0"; "GStreamer-exception-2005"; "GStreamer-exception-2008";
  "i2p-gpl-java-exception"; "KiCad-libraries-exception"; "LGPL-3.0-linking-exception";
  "libpri-OpenH323-exception"; "Libtool-exception"; "Linux-syscall-note"; "LLGPL"; "LLVM-exception";
  "LZMA-exception"; "mif-exception"; "Nokia-Qt-exception-1.1"; "OCaml-LGPL-linking-exception";
  "OCCT-exception-1.0"; "OpenJDK-assembly-exception-1.0"; "openvpn-openssl-exception";
  "PS-or-PDF-font-exception-20170817"; "QPL-1.0-INRIA-2004-exception"; "Qt-GPL-exception-1.0";
  "Qt-LGPL-exception-1.1"; "Qwt-exception-1.0"; "SHL-2.0"; "SHL-2.1"; "SWI-exception"; "Swift-exception";
  "u-boot-exception-2.0"; "Universal-FOSS-exception-1.0"; "vsftpd-openssl-exception";
  "WxWindows-exception-3.1"; "x11vnc-openssl-exception"].
Definition spdx_schema : schema := Sch [KType Ty_string; KEnum spdx_ids].

(** jsf-0.82.schema.json *)
Definition jsf_signature : schema := Sch [KType Ty_object; KOneOf [Sch [KOnly ["signers"]; KProperties
  [("signers", Sch [KType Ty_array; KItems (Sch [KRef "jsf:signer"])])]]; Sch [KOnly ["chain"]; KProperties
  [("chain", Sch [KType Ty_array; KItems (Sch [KRef "jsf:signer"])])]]; Sch [KRef "jsf:signer"]]].
Definition jsf_signer : schema := Sch [KType Ty_object; KRequired ["algorithm"; "value"]; KOnly ["algorithm";
  "keyId"; "publicKey"; "certificatePath"; "excludes"; "value"]; KProperties [("algorithm", Sch [KOneOf [Sch
  [KType Ty_string; KEnum ["RS256"; "RS384"; "RS512"; "PS256"; "PS384"; "PS512"; "ES256"; "ES384"; "ES512";
  "Ed25519"; "Ed448"; "HS256"; "HS384"; "HS512"]]; Sch [KType Ty_string; KFormat "uri"]]]); ("keyId", Sch
  [KType Ty_string]); ("publicKey", Sch [KRef "jsf:publicKey"]); ("certificatePath", Sch [KType Ty_array;
  KItems (Sch [KType Ty_string])]); ("excludes", Sch [KType Ty_array; KItems (Sch [KType Ty_string])]);
  ("value", Sch [KType Ty_string])]].
Definition jsf_keyType : schema := Sch [KType Ty_string; KEnum ["EC"; "OKP"; "RSA"]].
Definition jsf_publicKey : schema := Sch [KType Ty_object; KRequired ["kty"]].

Definition shared_definitions : list (string * schema) := [("spdx", spdx_schema); ("jsf:signature",
  jsf_signature); ("jsf:signer", jsf_signer); ("jsf:keyType", jsf_keyType); ("jsf:publicKey", jsf_publicKey)].

(** bom-1.3.schema.json *)
Definition s13_root : schema := Sch [KType Ty_object; KRequired ["bomFormat"; "specVersion"; "version"];
  KProperties [("bomFormat", Sch [KType Ty_string; KEnum ["CycloneDX"]]); ("specVersion", Sch [KType
  Ty_string]); ("serialNumber", Sch [KType Ty_string; KPattern pattern_1]); ("version", Sch [KType
  Ty_integer]); ("metadata", Sch [KRef "metadata"]); ("components", Sch [KType Ty_array; KItems (Sch [KRef
  "component"]); KUnique]); ("services", Sch [KType Ty_array; KItems (Sch [KRef "service"]); KUnique]);
  ("externalReferences", Sch [KType Ty_array; KItems (Sch [KRef "externalReference"])]); ("dependencies", Sch
  [KType Ty_array; KItems (Sch [KRef "dependency"]); KUnique]); ("compositions", Sch [KType Ty_array; KItems
  (Sch [KRef "compositions"]); KUnique])]].
Definition s13_refType : schema := Sch [KType Ty_string].
Definition s13_metadata : schema := Sch [KType Ty_object; KProperties [("timestamp", Sch [KType Ty_string;
  KFormat "date-time"]); ("tools", Sch [KType Ty_array; KItems (Sch [KRef "tool"])]); ("authors", Sch [KType
  Ty_array; KItems (Sch [KRef "organizationalContact"])]); ("component", Sch [KRef "component"]);
  ("manufacture", Sch [KRef "organizationalEntity"]); ("supplier", Sch [KRef "organizationalEntity"]);
  ("licenses", Sch [KType Ty_array; KItems (Sch [KRef "licenseChoice"])]); ("properties", Sch [KType Ty_array;
  KItems (Sch [KRef "property"])])]].
Definition s13_tool : schema := Sch [KType Ty_object; KProperties [("vendor", Sch [KType Ty_string]); ("name",
  Sch [KType Ty_string]); ("version", Sch [KType Ty_string]); ("hashes", Sch [KType Ty_array; KItems (Sch
  [KRef "hash"])])]].
Definition s13_organizationalEntity : schema := Sch [KType Ty_object; KProperties [("name", Sch [KType
  Ty_string]); ("url", Sch [KType Ty_array; KItems (Sch [KType Ty_string; KFormat "iri-reference"])]);
  ("contact", Sch [KType Ty_array; KItems (Sch [KRef "organizationalContact"])])]].
Definition s13_organizationalContact : schema := Sch [KType Ty_object; KProperties [("name", Sch [KType
  Ty_string]); ("email", Sch [KType Ty_string]); ("phone", Sch [KType Ty_string])]].
Definition s13_component : schema := Sch [KType Ty_object; KRequired ["type"; "name"; "version"]; KProperties
  [("type", Sch [KType Ty_string; KEnum ["application"; "framework"; "library"; "container";
  "operating-system"; "device"; "firmware"; "file"]]); ("mime-type", Sch [KType Ty_string; KPattern
  pattern_2]); ("bom-ref", Sch [KRef "refType"]); ("supplier", Sch [KRef "organizationalEntity"]); ("author",
  Sch [KType Ty_string]); ("publisher", Sch [KType Ty_string]); ("group", Sch [KType Ty_string]); ("name", Sch
  [KType Ty_string]); ("version", Sch [KType Ty_string]); ("description", Sch [KType Ty_string]); ("scope",
  Sch [KType Ty_string; KEnum ["required"; "optional"; "excluded"]]); ("hashes", Sch [KType Ty_array; KItems
  (Sch [KRef "hash"])]); ("licenses", Sch [KType Ty_array; KItems (Sch [KRef "licenseChoice"])]);
  ("copyright", Sch [KType Ty_string]); ("cpe", Sch [KType Ty_string]); ("purl", Sch [KType Ty_string]);
  ("swid", Sch [KRef "swid"]); ("modified", Sch [KType Ty_boolean]); ("pedigree", Sch [KType Ty_object;
  KProperties [("ancestors", Sch [KType Ty_array; KItems (Sch [KRef "component"])]); ("descendants", Sch
  [KType Ty_array; KItems (Sch [KRef "component"])]); ("variants", Sch [KType Ty_array; KItems (Sch [KRef
  "component"])]); ("commits", Sch [KType Ty_array; KItems (Sch [KRef "commit"])]); ("patches", Sch [KType
  Ty_array; KItems (Sch [KRef "patch"])]); ("notes", Sch [KType Ty_string])]]); ("externalReferences", Sch
  [KType Ty_array; KItems (Sch [KRef "externalReference"])]); ("components", Sch [KType Ty_array; KItems (Sch
  [KRef "component"]); KUnique]); ("evidence", Sch [KRef "componentEvidence"]); ("properties", Sch [KType
  Ty_array; KItems (Sch [KRef "property"])])]].
Definition s13_swid : schema := Sch [KType Ty_object; KRequired ["tagId"; "name"]; KProperties [("tagId", Sch
  [KType Ty_string]); ("name", Sch [KType Ty_string]); ("version", Sch [KType Ty_string]); ("tagVersion", Sch
  [KType Ty_integer]); ("patch", Sch [KType Ty_boolean]); ("text", Sch [KRef "attachment"]); ("url", Sch
  [KType Ty_string; KFormat "iri-reference"])]].
Definition s13_attachment : schema := Sch [KType Ty_object; KRequired ["content"]; KProperties
  [("contentType", Sch [KType Ty_string]); ("encoding", Sch [KType Ty_string; KEnum ["base64"]]); ("content",
  Sch [KType Ty_string])]].
Definition s13_hash : schema := Sch [KType Ty_object; KRequired ["alg"; "content"]; KProperties [("alg", Sch
  [KRef "hash-alg"]); ("content", Sch [KRef "hash-content"])]].
Definition s13_hash_alg : schema := Sch [KType Ty_string; KEnum ["MD5"; "SHA-1"; "SHA-256"; "SHA-384";
  "SHA-512"; "SHA3-256"; "SHA3-384"; "SHA3-512"; "BLAKE2b-256"; "BLAKE2b-384"; "BLAKE2b-512"; "BLAKE3"]].
Definition s13_hash_content : schema := Sch [KType Ty_string; KPattern pattern_3].
Definition s13_license : schema := Sch [KType Ty_object; KOneOf [Sch [KRequired ["id"]]; Sch [KRequired
  ["name"]]]; KProperties [("id", Sch [KRef "spdx"]); ("name", Sch [KType Ty_string]); ("text", Sch [KRef
  "attachment"]); ("url", Sch [KType Ty_string; KFormat "iri-reference"])]].
Definition s13_licenseChoice : schema := Sch [KType Ty_object; KProperties [("license", Sch [KRef "license"]);
  ("expression", Sch [KType Ty_string])]; KOneOf [Sch [KRequired ["license"]]; Sch [KRequired
  ["expression"]]]].
Definition s13_commit : schema := Sch [KType Ty_object; KProperties [("uid", Sch [KType Ty_string]); ("url",
  Sch [KType Ty_string; KFormat "iri-reference"]); ("author", Sch [KRef "identifiableAction"]); ("committer",
  Sch [KRef "identifiableAction"]); ("message", Sch [KType Ty_string])]].
Definition s13_patch : schema := Sch [KType Ty_object; KRequired ["type"]; KProperties [("type", Sch [KType
  Ty_string; KEnum ["unofficial"; "monkey"; "backport"; "cherry-pick"]]); ("diff", Sch [KRef "diff"]);
  ("resolves", Sch [KType Ty_array; KItems (Sch [KRef "issue"])])]].
Definition s13_diff : schema := Sch [KType Ty_object; KProperties [("text", Sch [KRef "attachment"]); ("url",
  Sch [KType Ty_string; KFormat "iri-reference"])]].
Definition s13_issue : schema := Sch [KType Ty_object; KRequired ["type"]; KProperties [("type", Sch [KType
  Ty_string; KEnum ["defect"; "enhancement"; "security"]]); ("id", Sch [KType Ty_string]); ("name", Sch [KType
  Ty_string]); ("description", Sch [KType Ty_string]); ("source", Sch [KType Ty_object; KProperties [("name",
  Sch [KType Ty_string]); ("url", Sch [KType Ty_string; KFormat "iri-reference"])]]); ("references", Sch
  [KType Ty_array; KItems (Sch [KType Ty_string; KFormat "iri-reference"])])]].
Definition s13_identifiableAction : schema := Sch [KType Ty_object; KProperties [("timestamp", Sch [KType
  Ty_string; KFormat "date-time"]); ("name", Sch [KType Ty_string]); ("email", Sch [KType Ty_string; KFormat
  "idn-email"])]].
Definition s13_externalReference : schema := Sch [KType Ty_object; KRequired ["url"; "type"]; KProperties
  [("url", Sch [KType Ty_string; KFormat "iri-reference"]); ("comment", Sch [KType Ty_string]); ("type", Sch
  [KType Ty_string; KEnum ["vcs"; "issue-tracker"; "website"; "advisories"; "bom"; "mailing-list"; "social";
  "chat"; "documentation"; "support"; "distribution"; "license"; "build-meta"; "build-system"; "other"]]);
  ("hashes", Sch [KType Ty_array; KItems (Sch [KRef "hash"])])]].
Definition s13_dependency : schema := Sch [KType Ty_object; KRequired ["ref"]; KProperties [("ref", Sch [KRef
  "refType"]); ("dependsOn", Sch [KType Ty_array; KUnique; KItems (Sch [KRef "refType"])])]].
Definition s13_service : schema := Sch [KType Ty_object; KRequired ["name"]; KProperties [("bom-ref", Sch
  [KRef "refType"]); ("provider", Sch [KRef "organizationalEntity"]); ("group", Sch [KType Ty_string]);
  ("name", Sch [KType Ty_string]); ("version", Sch [KType Ty_string]); ("description", Sch [KType Ty_string]);
  ("endpoints", Sch [KType Ty_array; KItems (Sch [KType Ty_string; KFormat "iri-reference"])]);
  ("authenticated", Sch [KType Ty_boolean]); ("x-trust-boundary", Sch [KType Ty_boolean]); ("data", Sch [KType
  Ty_array; KItems (Sch [KRef "dataClassification"])]); ("licenses", Sch [KType Ty_array; KItems (Sch [KRef
  "licenseChoice"])]); ("externalReferences", Sch [KType Ty_array; KItems (Sch [KRef "externalReference"])]);
  ("services", Sch [KType Ty_array; KItems (Sch [KRef "service"]); KUnique]); ("properties", Sch [KType
  Ty_array; KItems (Sch [KRef "property"])])]].
Definition s13_dataClassification : schema := Sch [KType Ty_object; KRequired ["flow"; "classification"];
  KProperties [("flow", Sch [KRef "dataFlow"]); ("classification", Sch [KType Ty_string])]].
Definition s13_dataFlow : schema := Sch [KType Ty_string; KEnum ["inbound"; "outbound"; "bi-directional";
  "unknown"]].
Definition s13_copyright : schema := Sch [KType Ty_object; KRequired ["text"]; KProperties [("text", Sch
  [KType Ty_string])]].
Definition s13_componentEvidence : schema := Sch [KType Ty_object; KProperties [("licenses", Sch [KType
  Ty_array; KItems (Sch [KRef "licenseChoice"])]); ("copyright", Sch [KType Ty_array; KItems (Sch [KRef
  "copyright"])])]].
Definition s13_compositions : schema := Sch [KType Ty_object; KRequired ["aggregate"]; KProperties
  [("aggregate", Sch [KRef "aggregateType"]); ("assemblies", Sch [KType Ty_array; KUnique; KItems (Sch [KType
  Ty_string])]); ("dependencies", Sch [KType Ty_array; KUnique; KItems (Sch [KType Ty_string])])]].
Definition s13_aggregateType : schema := Sch [KType Ty_string; KEnum ["complete"; "incomplete";
  "incomplete_first_party_only"; "incomplete_third_party_only"; "unknown"; "not_specified"]].
Definition s13_property : schema := Sch [KType Ty_object; KProperties [("name", Sch [KType Ty_string]);
  ("value", Sch [KType Ty_string])]].
Definition s13_definitions : list (string * schema) := [("refType", s13_refType); ("metadata", s13_metadata);
  ("tool", s13_tool); ("organizationalEntity", s13_organizationalEntity); ("organizationalContact",
  s13_organizationalContact); ("component", s13_component); ("swid", s13_swid); ("attachment",
  s13_attachment); ("hash", s13_hash); ("hash-alg", s13_hash_alg); ("hash-content", s13_hash_content);
  ("license", s13_license); ("licenseChoice", s13_licenseChoice); ("commit", s13_commit); ("patch",
  s13_patch); ("diff", s13_diff); ("issue", s13_issue); ("identifiableAction", s13_identifiableAction);
  ("externalReference", s13_externalReference); ("dependency", s13_dependency); ("service", s13_service);
  ("dataClassification", s13_dataClassification); ("dataFlow", s13_dataFlow); ("copyright", s13_copyright);
  ("componentEvidence", s13_componentEvidence); ("compositions", s13_compositions); ("aggregateType",
  s13_aggregateType); ("property", s13_property)] ++ shared_definitions.

(** bom-1.4.schema.json *)
Definition s14_root : schema := Sch [KType Ty_object; KRequired ["bomFormat"; "specVersion"; "version"]; KOnly
  ["$schema"; "bomFormat"; "specVersion"; "serialNumber"; "version"; "metadata"; "components"; "services";
  "externalReferences"; "dependencies"; "compositions"; "vulnerabilities"; "signature"]; KProperties
  [("$schema", Sch [KType Ty_string; KEnum ["http://cyclonedx.org/schema/bom-1.4.schema.json"]]);
  ("bomFormat", Sch [KType Ty_string; KEnum ["CycloneDX"]]); ("specVersion", Sch [KType Ty_string]);
  ("serialNumber", Sch [KType Ty_string; KPattern pattern_1]); ("version", Sch [KType Ty_integer]);
  ("metadata", Sch [KRef "metadata"]); ("components", Sch [KType Ty_array; KItems (Sch [KRef "component"]);
  KUnique]); ("services", Sch [KType Ty_array; KItems (Sch [KRef "service"]); KUnique]);
  ("externalReferences", Sch [KType Ty_array; KItems (Sch [KRef "externalReference"])]); ("dependencies", Sch
  [KType Ty_array; KItems (Sch [KRef "dependency"]); KUnique]); ("compositions", Sch [KType Ty_array; KItems
  (Sch [KRef "compositions"]); KUnique]); ("vulnerabilities", Sch [KType Ty_array; KItems (Sch [KRef
  "vulnerability"]); KUnique]); ("signature", Sch [KRef "signature"])]].
Definition s14_refType : schema := Sch [KType Ty_string].
Definition s14_metadata : schema := Sch [KType Ty_object; KOnly ["timestamp"; "tools"; "authors"; "component";
  "manufacture"; "supplier"; "licenses"; "properties"]; KProperties [("timestamp", Sch [KType Ty_string;
  KFormat "date-time"]); ("tools", Sch [KType Ty_array; KItems (Sch [KRef "tool"])]); ("authors", Sch [KType
  Ty_array; KItems (Sch [KRef "organizationalContact"])]); ("component", Sch [KRef "component"]);
  ("manufacture", Sch [KRef "organizationalEntity"]); ("supplier", Sch [KRef "organizationalEntity"]);
  ("licenses", Sch [KType Ty_array; KItems (Sch [KRef "licenseChoice"])]); ("properties", Sch [KType Ty_array;
  KItems (Sch [KRef "property"])])]].
Definition s14_tool : schema := Sch [KType Ty_object; KOnly ["vendor"; "name"; "version"; "hashes";
  "externalReferences"]; KProperties [("vendor", Sch [KType Ty_string]); ("name", Sch [KType Ty_string]);
  ("version", Sch [KType Ty_string]); ("hashes", Sch [KType Ty_array; KItems (Sch [KRef "hash"])]);
  ("externalReferences", Sch [KType Ty_array; KItems (Sch [KRef "externalReference"])])]].
Definition s14_organizationalEntity : schema := Sch [KType Ty_object; KOnly ["name"; "url"; "contact"];
  KProperties [("name", Sch [KType Ty_string]); ("url", Sch [KType Ty_array; KItems (Sch [KType Ty_string;
  KFormat "iri-reference"])]); ("contact", Sch [KType Ty_array; KItems (Sch [KRef
  "organizationalContact"])])]].
Definition s14_organizationalContact : schema := Sch [KType Ty_object; KOnly ["name"; "email"; "phone"];
  KProperties [("name", Sch [KType Ty_string]); ("email", Sch [KType Ty_string; KFormat "idn-email"]);
  ("phone", Sch [KType Ty_string])]].
Definition s14_component : schema := Sch [KType Ty_object; KRequired ["type"; "name"]; KOnly ["type";
  "mime-type"; "bom-ref"; "supplier"; "author"; "publisher"; "group"; "name"; "version"; "description";
  "scope"; "hashes"; "licenses"; "copyright"; "cpe"; "purl"; "swid"; "modified"; "pedigree";
  "externalReferences"; "components"; "evidence"; "releaseNotes"; "properties"; "signature"]; KProperties
  [("type", Sch [KType Ty_string; KEnum ["application"; "framework"; "library"; "container";
  "operating-system"; "device"; "firmware"; "file"]]); ("mime-type", Sch [KType Ty_string; KPattern
  pattern_2]); ("bom-ref", Sch [KRef "refType"]); ("supplier", Sch [KRef "organizationalEntity"]); ("author",
  Sch [KType Ty_string]); ("publisher", Sch [KType Ty_string]); ("group", Sch [KType Ty_string]); ("name", Sch
  [KType Ty_string]); ("version", Sch [KType Ty_string]); ("description", Sch [KType Ty_string]); ("scope",
  Sch [KType Ty_string; KEnum ["required"; "optional"; "excluded"]]); ("hashes", Sch [KType Ty_array; KItems
  (Sch [KRef "hash"])]); ("licenses", Sch [KType Ty_array; KItems (Sch [KRef "licenseChoice"])]);
  ("copyright", Sch [KType Ty_string]); ("cpe", Sch [KType Ty_string]); ("purl", Sch [KType Ty_string]);
  ("swid", Sch [KRef "swid"]); ("modified", Sch [KType Ty_boolean]); ("pedigree", Sch [KType Ty_object; KOnly
  ["ancestors"; "descendants"; "variants"; "commits"; "patches"; "notes"]; KProperties [("ancestors", Sch
  [KType Ty_array; KItems (Sch [KRef "component"])]); ("descendants", Sch [KType Ty_array; KItems (Sch [KRef
  "component"])]); ("variants", Sch [KType Ty_array; KItems (Sch [KRef "component"])]); ("commits", Sch [KType
  Ty_array; KItems (Sch [KRef "commit"])]); ("patches", Sch [KType Ty_array; KItems (Sch [KRef "patch"])]);
  ("notes", Sch [KType Ty_string])]]); ("externalReferences", Sch [KType Ty_array; KItems (Sch [KRef
  "externalReference"])]); ("components", Sch [KType Ty_array; KItems (Sch [KRef "component"]); KUnique]);
  ("evidence", Sch [KRef "componentEvidence"]); ("releaseNotes", Sch [KRef "releaseNotes"]); ("properties",
  Sch [KType Ty_array; KItems (Sch [KRef "property"])]); ("signature", Sch [KRef "signature"])]].
Definition s14_swid : schema := Sch [KType Ty_object; KRequired ["tagId"; "name"]; KOnly ["tagId"; "name";
  "version"; "tagVersion"; "patch"; "text"; "url"]; KProperties [("tagId", Sch [KType Ty_string]); ("name",
  Sch [KType Ty_string]); ("version", Sch [KType Ty_string]); ("tagVersion", Sch [KType Ty_integer]);
  ("patch", Sch [KType Ty_boolean]); ("text", Sch [KRef "attachment"]); ("url", Sch [KType Ty_string; KFormat
  "iri-reference"])]].
Definition s14_attachment : schema := Sch [KType Ty_object; KRequired ["content"]; KOnly ["contentType";
  "encoding"; "content"]; KProperties [("contentType", Sch [KType Ty_string]); ("encoding", Sch [KType
  Ty_string; KEnum ["base64"]]); ("content", Sch [KType Ty_string])]].
Definition s14_hash : schema := Sch [KType Ty_object; KRequired ["alg"; "content"]; KOnly ["alg"; "content"];
  KProperties [("alg", Sch [KRef "hash-alg"]); ("content", Sch [KRef "hash-content"])]].
Definition s14_hash_alg : schema := Sch [KType Ty_string; KEnum ["MD5"; "SHA-1"; "SHA-256"; "SHA-384";
  "SHA-512"; "SHA3-256"; "SHA3-384"; "SHA3-512"; "BLAKE2b-256"; "BLAKE2b-384"; "BLAKE2b-512"; "BLAKE3"]].
Definition s14_hash_content : schema := Sch [KType Ty_string; KPattern pattern_3].
Definition s14_license : schema := Sch [KType Ty_object; KOneOf [Sch [KRequired ["id"]]; Sch [KRequired
  ["name"]]]; KOnly ["id"; "name"; "text"; "url"]; KProperties [("id", Sch [KRef "spdx"]); ("name", Sch [KType
  Ty_string]); ("text", Sch [KRef "attachment"]); ("url", Sch [KType Ty_string; KFormat "iri-reference"])]].
Definition s14_licenseChoice : schema := Sch [KType Ty_object; KOnly ["license"; "expression"]; KProperties
  [("license", Sch [KRef "license"]); ("expression", Sch [KType Ty_string])]; KOneOf [Sch [KRequired
  ["license"]]; Sch [KRequired ["expression"]]]].
Definition s14_commit : schema := Sch [KType Ty_object; KOnly ["uid"; "url"; "author"; "committer";
  "message"]; KProperties [("uid", Sch [KType Ty_string]); ("url", Sch [KType Ty_string; KFormat
  "iri-reference"]); ("author", Sch [KRef "identifiableAction"]); ("committer", Sch [KRef
  "identifiableAction"]); ("message", Sch [KType Ty_string])]].
Definition s14_patch : schema := Sch [KType Ty_object; KRequired ["type"]; KOnly ["type"; "diff"; "resolves"];
  KProperties [("type", Sch [KType Ty_string; KEnum ["unofficial"; "monkey"; "backport"; "cherry-pick"]]);
  ("diff", Sch [KRef "diff"]); ("resolves", Sch [KType Ty_array; KItems (Sch [KRef "issue"])])]].
Definition s14_diff : schema := Sch [KType Ty_object; KOnly ["text"; "url"]; KProperties [("text", Sch [KRef
  "attachment"]); ("url", Sch [KType Ty_string; KFormat "iri-reference"])]].
Definition s14_issue : schema := Sch [KType Ty_object; KRequired ["type"]; KOnly ["type"; "id"; "name";
  "description"; "source"; "references"]; KProperties [("type", Sch [KType Ty_string; KEnum ["defect";
  "enhancement"; "security"]]); ("id", Sch [KType Ty_string]); ("name", Sch [KType Ty_string]);
  ("description", Sch [KType Ty_string]); ("source", Sch [KType Ty_object; KOnly ["name"; "url"]; KProperties
  [("name", Sch [KType Ty_string]); ("url", Sch [KType Ty_string; KFormat "iri-reference"])]]); ("references",
  Sch [KType Ty_array; KItems (Sch [KType Ty_string; KFormat "iri-reference"])])]].
Definition s14_identifiableAction : schema := Sch [KType Ty_object; KOnly ["timestamp"; "name"; "email"];
  KProperties [("timestamp", Sch [KType Ty_string; KFormat "date-time"]); ("name", Sch [KType Ty_string]);
  ("email", Sch [KType Ty_string; KFormat "idn-email"])]].
Definition s14_externalReference : schema := Sch [KType Ty_object; KRequired ["url"; "type"]; KOnly ["url";
  "comment"; "type"; "hashes"]; KProperties [("url", Sch [KType Ty_string; KFormat "iri-reference"]);
  ("comment", Sch [KType Ty_string]); ("type", Sch [KType Ty_string; KEnum ["vcs"; "issue-tracker"; "website";
  "advisories"; "bom"; "mailing-list"; "social"; "chat"; "documentation"; "support"; "distribution";
  "license"; "build-meta"; "build-system"; "release-notes"; "other"]]); ("hashes", Sch [KType Ty_array; KItems
  (Sch [KRef "hash"])])]].
Definition s14_dependency : schema := Sch [KType Ty_object; KRequired ["ref"]; KOnly ["ref"; "dependsOn"];
  KProperties [("ref", Sch [KRef "refType"]); ("dependsOn", Sch [KType Ty_array; KUnique; KItems (Sch [KRef
  "refType"])])]].
Definition s14_service : schema := Sch [KType Ty_object; KRequired ["name"]; KOnly ["bom-ref"; "provider";
  "group"; "name"; "version"; "description"; "endpoints"; "authenticated"; "x-trust-boundary"; "data";
  "licenses"; "externalReferences"; "services"; "releaseNotes"; "properties"; "signature"]; KProperties
  [("bom-ref", Sch [KRef "refType"]); ("provider", Sch [KRef "organizationalEntity"]); ("group", Sch [KType
  Ty_string]); ("name", Sch [KType Ty_string]); ("version", Sch [KType Ty_string]); ("description", Sch [KType
  Ty_string]); ("endpoints", Sch [KType Ty_array; KItems (Sch [KType Ty_string; KFormat "iri-reference"])]);
  ("authenticated", Sch [KType Ty_boolean]); ("x-trust-boundary", Sch [KType Ty_boolean]); ("data", Sch [KType
  Ty_array; KItems (Sch [KRef "dataClassification"])]); ("licenses", Sch [KType Ty_array; KItems (Sch [KRef
  "licenseChoice"])]); ("externalReferences", Sch [KType Ty_array; KItems (Sch [KRef "externalReference"])]);
  ("services", Sch [KType Ty_array; KItems (Sch [KRef "service"]); KUnique]); ("releaseNotes", Sch [KRef
  "releaseNotes"]); ("properties", Sch [KType Ty_array; KItems (Sch [KRef "property"])]); ("signature", Sch
  [KRef "signature"])]].
Definition s14_dataClassification : schema := Sch [KType Ty_object; KRequired ["flow"; "classification"];
  KOnly ["flow"; "classification"]; KProperties [("flow", Sch [KRef "dataFlow"]); ("classification", Sch
  [KType Ty_string])]].
Definition s14_dataFlow : schema := Sch [KType Ty_string; KEnum ["inbound"; "outbound"; "bi-directional";
  "unknown"]].
Definition s14_copyright : schema := Sch [KType Ty_object; KRequired ["text"]; KOnly ["text"]; KProperties
  [("text", Sch [KType Ty_string])]].
Definition s14_componentEvidence : schema := Sch [KType Ty_object; KOnly ["licenses"; "copyright"];
  KProperties [("licenses", Sch [KType Ty_array; KItems (Sch [KRef "licenseChoice"])]); ("copyright", Sch
  [KType Ty_array; KItems (Sch [KRef "copyright"])])]].
Definition s14_compositions : schema := Sch [KType Ty_object; KRequired ["aggregate"]; KOnly ["aggregate";
  "assemblies"; "dependencies"; "signature"]; KProperties [("aggregate", Sch [KRef "aggregateType"]);
  ("assemblies", Sch [KType Ty_array; KUnique; KItems (Sch [KType Ty_string])]); ("dependencies", Sch [KType
  Ty_array; KUnique; KItems (Sch [KType Ty_string])]); ("signature", Sch [KRef "signature"])]].
Definition s14_aggregateType : schema := Sch [KType Ty_string; KEnum ["complete"; "incomplete";
  "incomplete_first_party_only"; "incomplete_third_party_only"; "unknown"; "not_specified"]].
Definition s14_property : schema := Sch [KType Ty_object; KProperties [("name", Sch [KType Ty_string]);
  ("value", Sch [KType Ty_string])]].
Definition s14_localeType : schema := Sch [KType Ty_string; KPattern pattern_4].
Definition s14_releaseType : schema := Sch [KType Ty_string].
Definition s14_note : schema := Sch [KType Ty_object; KRequired ["text"]; KOnly ["locale"; "text"];
  KProperties [("locale", Sch [KRef "localeType"]); ("text", Sch [KRef "attachment"])]].
Definition s14_releaseNotes : schema := Sch [KType Ty_object; KRequired ["type"]; KOnly ["type"; "title";
  "featuredImage"; "socialImage"; "description"; "timestamp"; "aliases"; "tags"; "resolves"; "notes";
  "properties"]; KProperties [("type", Sch [KRef "releaseType"]); ("title", Sch [KType Ty_string]);
  ("featuredImage", Sch [KType Ty_string; KFormat "iri-reference"]); ("socialImage", Sch [KType Ty_string;
  KFormat "iri-reference"]); ("description", Sch [KType Ty_string]); ("timestamp", Sch [KType Ty_string;
  KFormat "date-time"]); ("aliases", Sch [KType Ty_array; KItems (Sch [KType Ty_string])]); ("tags", Sch
  [KType Ty_array; KItems (Sch [KType Ty_string])]); ("resolves", Sch [KType Ty_array; KItems (Sch [KRef
  "issue"])]); ("notes", Sch [KType Ty_array; KItems (Sch [KRef "note"])]); ("properties", Sch [KType
  Ty_array; KItems (Sch [KRef "property"])])]].
Definition s14_advisory : schema := Sch [KType Ty_object; KRequired ["url"]; KOnly ["title"; "url"];
  KProperties [("title", Sch [KType Ty_string]); ("url", Sch [KType Ty_string; KFormat "iri-reference"])]].
Definition s14_cwe : schema := Sch [KType Ty_integer; KMinimum 1%Z].
Definition s14_severity : schema := Sch [KType Ty_string; KEnum ["critical"; "high"; "medium"; "low"; "info";
  "none"; "unknown"]].
Definition s14_scoreMethod : schema := Sch [KType Ty_string; KEnum ["CVSSv2"; "CVSSv3"; "CVSSv31"; "OWASP";
  "other"]].
Definition s14_impactAnalysisState : schema := Sch [KType Ty_string; KEnum ["resolved";
  "resolved_with_pedigree"; "exploitable"; "in_triage"; "false_positive"; "not_affected"]].
Definition s14_impactAnalysisJustification : schema := Sch [KType Ty_string; KEnum ["code_not_present";
  "code_not_reachable"; "requires_configuration"; "requires_dependency"; "requires_environment";
  "protected_by_compiler"; "protected_at_runtime"; "protected_at_perimeter";
  "protected_by_mitigating_control"]].
Definition s14_rating : schema := Sch [KType Ty_object; KOnly ["source"; "score"; "severity"; "method";
  "vector"; "justification"]; KProperties [("source", Sch [KRef "vulnerabilitySource"]); ("score", Sch [KType
  Ty_number]); ("severity", Sch [KRef "severity"]); ("method", Sch [KRef "scoreMethod"]); ("vector", Sch
  [KType Ty_string]); ("justification", Sch [KType Ty_string])]].
Definition s14_vulnerabilitySource : schema := Sch [KType Ty_object; KOnly ["url"; "name"]; KProperties
  [("url", Sch [KType Ty_string]); ("name", Sch [KType Ty_string])]].
Definition s14_vulnerability : schema := Sch [KType Ty_object; KOnly ["bom-ref"; "id"; "source"; "references";
  "ratings"; "cwes"; "description"; "detail"; "recommendation"; "advisories"; "created"; "published";
  "updated"; "credits"; "tools"; "analysis"; "affects"; "properties"]; KProperties [("bom-ref", Sch [KRef
  "refType"]); ("id", Sch [KType Ty_string]); ("source", Sch [KRef "vulnerabilitySource"]); ("references", Sch
  [KType Ty_array; KItems (Sch [KRequired ["id"; "source"]; KOnly ["id"; "source"]; KProperties [("id", Sch
  [KType Ty_string]); ("source", Sch [KRef "vulnerabilitySource"])]])]); ("ratings", Sch [KType Ty_array;
  KItems (Sch [KRef "rating"])]); ("cwes", Sch [KType Ty_array; KItems (Sch [KRef "cwe"])]); ("description",
  Sch [KType Ty_string]); ("detail", Sch [KType Ty_string]); ("recommendation", Sch [KType Ty_string]);
  ("advisories", Sch [KType Ty_array; KItems (Sch [KRef "advisory"])]); ("created", Sch [KType Ty_string;
  KFormat "date-time"]); ("published", Sch [KType Ty_string; KFormat "date-time"]); ("updated", Sch [KType
  Ty_string; KFormat "date-time"]); ("credits", Sch [KType Ty_object; KOnly ["organizations"; "individuals"];
  KProperties [("organizations", Sch [KType Ty_array; KItems (Sch [KRef "organizationalEntity"])]);
  ("individuals", Sch [KType Ty_array; KItems (Sch [KRef "organizationalContact"])])]]); ("tools", Sch [KType
  Ty_array; KItems (Sch [KRef "tool"])]); ("analysis", Sch [KType Ty_object; KOnly ["state"; "justification";
  "response"; "detail"]; KProperties [("state", Sch [KRef "impactAnalysisState"]); ("justification", Sch [KRef
  "impactAnalysisJustification"]); ("response", Sch [KType Ty_array; KItems (Sch [KType Ty_string; KEnum
  ["can_not_fix"; "will_not_fix"; "update"; "rollback"; "workaround_available"]])]); ("detail", Sch [KType
  Ty_string])]]); ("affects", Sch [KType Ty_array; KUnique; KItems (Sch [KRequired ["ref"]; KOnly ["ref";
  "versions"]; KProperties [("ref", Sch [KRef "refType"]); ("versions", Sch [KType Ty_array; KItems (Sch
  [KOneOf [Sch [KRequired ["version"]]; Sch [KRequired ["range"]]]; KOnly ["version"; "range"; "status"];
  KProperties [("version", Sch [KRef "version"]); ("range", Sch [KRef "range"]); ("status", Sch [KRef
  "affectedStatus"])]])])]])]); ("properties", Sch [KType Ty_array; KItems (Sch [KRef "property"])])]].
Definition s14_affectedStatus : schema := Sch [KType Ty_string; KEnum ["affected"; "unaffected"; "unknown"]].
Definition s14_version : schema := Sch [KType Ty_string; KMinLength 1%N; KMaxLength 1024%N].
Definition s14_range : schema := Sch [KType Ty_string; KMinLength 1%N; KMaxLength 1024%N].
Definition s14_signature : schema := Sch [KRef "jsf:signature"].
Definition s14_definitions : list (string * schema) := [("refType", s14_refType); ("metadata", s14_metadata);
  ("tool", s14_tool); ("organizationalEntity", s14_organizationalEntity); ("organizationalContact",
  s14_organizationalContact); ("component", s14_component); ("swid", s14_swid); ("attachment",
  s14_attachment); ("hash", s14_hash); ("hash-alg", s14_hash_alg); ("hash-content", s14_hash_content);
  ("license", s14_license); ("licenseChoice", s14_licenseChoice); ("commit", s14_commit); ("patch",
  s14_patch); ("diff", s14_diff); ("issue", s14_issue); ("identifiableAction", s14_identifiableAction);
  ("externalReference", s14_externalReference); ("dependency", s14_dependency); ("service", s14_service);
  ("dataClassification", s14_dataClassification); ("dataFlow", s14_dataFlow); ("copyright", s14_copyright);
  ("componentEvidence", s14_componentEvidence); ("compositions", s14_compositions); ("aggregateType",
  s14_aggregateType); ("property", s14_property); ("localeType", s14_localeType); ("releaseType",
  s14_releaseType); ("note", s14_note); ("releaseNotes", s14_releaseNotes); ("advisory", s14_advisory);
  ("cwe", s14_cwe); ("severity", s14_severity); ("scoreMethod", s14_scoreMethod); ("impactAnalysisState",
  s14_impactAnalysisState); ("impactAnalysisJustification", s14_impactAnalysisJustification); ("rating",
  s14_rating); ("vulnerabilitySource", s14_vulnerabilitySource); ("vulnerability", s14_vulnerability);
  ("affectedStatus", s14_affectedStatus); ("version", s14_version); ("range", s14_range); ("signature",
  s14_signature)] ++ shared_definitions.

(** bom-1.5.schema.json *)
Definition s15_root : schema := Sch [KType Ty_object; KRequired ["bomFormat"; "specVersion"]; KOnly
  ["$schema"; "bomFormat"; "specVersion"; "serialNumber"; "version"; "metadata"; "components"; "services";
  "externalReferences"; "dependencies"; "compositions"; "vulnerabilities"; "annotations"; "formulation";
  "properties"; "signature"]; KProperties [("$schema", Sch [KType Ty_string; KEnum
  ["http://cyclonedx.org/schema/bom-1.5.schema.json"]]); ("bomFormat", Sch [KType Ty_string; KEnum
  ["CycloneDX"]]); ("specVersion", Sch [KType Ty_string]); ("serialNumber", Sch [KType Ty_string; KPattern
  pattern_1]); ("version", Sch [KType Ty_integer; KMinimum 1%Z]); ("metadata", Sch [KRef "metadata"]);
  ("components", Sch [KType Ty_array; KItems (Sch [KRef "component"]); KUnique]); ("services", Sch [KType
  Ty_array; KItems (Sch [KRef "service"]); KUnique]); ("externalReferences", Sch [KType Ty_array; KItems (Sch
  [KRef "externalReference"])]); ("dependencies", Sch [KType Ty_array; KItems (Sch [KRef "dependency"]);
  KUnique]); ("compositions", Sch [KType Ty_array; KItems (Sch [KRef "compositions"]); KUnique]);
  ("vulnerabilities", Sch [KType Ty_array; KItems (Sch [KRef "vulnerability"]); KUnique]); ("annotations", Sch
  [KType Ty_array; KItems (Sch [KRef "annotations"]); KUnique]); ("formulation", Sch [KType Ty_array; KItems
  (Sch [KRef "formula"]); KUnique]); ("properties", Sch [KType Ty_array; KItems (Sch [KRef "property"])]);
  ("signature", Sch [KRef "signature"])]].
Definition s15_refType : schema := Sch [KType Ty_string; KMinLength 1%N].
Definition s15_refLinkType : schema := Sch [KAllOf [Sch [KRef "refType"]]].
Definition s15_bomLinkDocumentType : schema := Sch [KType Ty_string; KFormat "iri-reference"; KPattern
  pattern_5].
Definition s15_bomLinkElementType : schema := Sch [KType Ty_string; KFormat "iri-reference"; KPattern
  pattern_6].
Definition s15_bomLink : schema := Sch [KAnyOf [Sch [KRef "bomLinkDocumentType"]; Sch [KRef
  "bomLinkElementType"]]].
Definition s15_metadata : schema := Sch [KType Ty_object; KOnly ["timestamp"; "lifecycles"; "tools";
  "authors"; "component"; "manufacture"; "supplier"; "licenses"; "properties"]; KProperties [("timestamp", Sch
  [KType Ty_string; KFormat "date-time"]); ("lifecycles", Sch [KType Ty_array; KItems (Sch [KType Ty_object;
  KOneOf [Sch [KRequired ["phase"]; KOnly ["phase"]; KProperties [("phase", Sch [KType Ty_string; KEnum
  ["design"; "pre-build"; "build"; "post-build"; "operations"; "discovery"; "decommission"]])]]; Sch
  [KRequired ["name"]; KOnly ["name"; "description"]; KProperties [("name", Sch [KType Ty_string]);
  ("description", Sch [KType Ty_string])]]]])]); ("tools", Sch [KOneOf [Sch [KType Ty_object; KOnly
  ["components"; "services"]; KProperties [("components", Sch [KType Ty_array; KItems (Sch [KRef
  "component"]); KUnique]); ("services", Sch [KType Ty_array; KItems (Sch [KRef "service"]); KUnique])]]; Sch
  [KType Ty_array; KItems (Sch [KRef "tool"])]]]); ("authors", Sch [KType Ty_array; KItems (Sch [KRef
  "organizationalContact"])]); ("component", Sch [KRef "component"]); ("manufacture", Sch [KRef
  "organizationalEntity"]); ("supplier", Sch [KRef "organizationalEntity"]); ("licenses", Sch [KRef
  "licenseChoice"]); ("properties", Sch [KType Ty_array; KItems (Sch [KRef "property"])])]].
Definition s15_tool : schema := Sch [KType Ty_object; KOnly ["vendor"; "name"; "version"; "hashes";
  "externalReferences"]; KProperties [("vendor", Sch [KType Ty_string]); ("name", Sch [KType Ty_string]);
  ("version", Sch [KType Ty_string]); ("hashes", Sch [KType Ty_array; KItems (Sch [KRef "hash"])]);
  ("externalReferences", Sch [KType Ty_array; KItems (Sch [KRef "externalReference"])])]].
Definition s15_organizationalEntity : schema := Sch [KType Ty_object; KOnly ["bom-ref"; "name"; "url";
  "contact"]; KProperties [("bom-ref", Sch [KRef "refType"]); ("name", Sch [KType Ty_string]); ("url", Sch
  [KType Ty_array; KItems (Sch [KType Ty_string; KFormat "iri-reference"])]); ("contact", Sch [KType Ty_array;
  KItems (Sch [KRef "organizationalContact"])])]].
Definition s15_organizationalContact : schema := Sch [KType Ty_object; KOnly ["bom-ref"; "name"; "email";
  "phone"]; KProperties [("bom-ref", Sch [KRef "refType"]); ("name", Sch [KType Ty_string]); ("email", Sch
  [KType Ty_string; KFormat "idn-email"]); ("phone", Sch [KType Ty_string])]].
Definition s15_component : schema := Sch [KType Ty_object; KRequired ["type"; "name"]; KOnly ["type";
  "mime-type"; "bom-ref"; "supplier"; "author"; "publisher"; "group"; "name"; "version"; "description";
  "scope"; "hashes"; "licenses"; "copyright"; "cpe"; "purl"; "swid"; "modified"; "pedigree";
  "externalReferences"; "components"; "evidence"; "releaseNotes"; "modelCard"; "data"; "properties";
  "signature"]; KProperties [("type", Sch [KType Ty_string; KEnum ["application"; "framework"; "library";
  "container"; "platform"; "operating-system"; "device"; "device-driver"; "firmware"; "file";
  "machine-learning-model"; "data"]]); ("mime-type", Sch [KType Ty_string; KPattern pattern_2]); ("bom-ref",
  Sch [KRef "refType"]); ("supplier", Sch [KRef "organizationalEntity"]); ("author", Sch [KType Ty_string]);
  ("publisher", Sch [KType Ty_string]); ("group", Sch [KType Ty_string]); ("name", Sch [KType Ty_string]);
  ("version", Sch [KType Ty_string]); ("description", Sch [KType Ty_string]); ("scope", Sch [KType Ty_string;
  KEnum ["required"; "optional"; "excluded"]]); ("hashes", Sch [KType Ty_array; KItems (Sch [KRef "hash"])]);
  ("licenses", Sch [KRef "licenseChoice"]); ("copyright", Sch [KType Ty_string]); ("cpe", Sch [KType
  Ty_string]); ("purl", Sch [KType Ty_string]); ("swid", Sch [KRef "swid"]); ("modified", Sch [KType
  Ty_boolean]); ("pedigree", Sch [KType Ty_object; KOnly ["ancestors"; "descendants"; "variants"; "commits";
  "patches"; "notes"]; KProperties [("ancestors", Sch [KType Ty_array; KItems (Sch [KRef "component"])]);
  ("descendants", Sch [KType Ty_array; KItems (Sch [KRef "component"])]); ("variants", Sch [KType Ty_array;
  KItems (Sch [KRef "component"])]); ("commits", Sch [KType Ty_array; KItems (Sch [KRef "commit"])]);
  ("patches", Sch [KType Ty_array; KItems (Sch [KRef "patch"])]); ("notes", Sch [KType Ty_string])]]);
  ("externalReferences", Sch [KType Ty_array; KItems (Sch [KRef "externalReference"])]); ("components", Sch
  [KType Ty_array; KItems (Sch [KRef "component"]); KUnique]); ("evidence", Sch [KRef "componentEvidence"]);
  ("releaseNotes", Sch [KRef "releaseNotes"]); ("modelCard", Sch [KRef "modelCard"]); ("data", Sch [KType
  Ty_array; KItems (Sch [KRef "componentData"])]); ("properties", Sch [KType Ty_array; KItems (Sch [KRef
  "property"])]); ("signature", Sch [KRef "signature"])]].
Definition s15_swid : schema := Sch [KType Ty_object; KRequired ["tagId"; "name"]; KOnly ["tagId"; "name";
  "version"; "tagVersion"; "patch"; "text"; "url"]; KProperties [("tagId", Sch [KType Ty_string]); ("name",
  Sch [KType Ty_string]); ("version", Sch [KType Ty_string]); ("tagVersion", Sch [KType Ty_integer]);
  ("patch", Sch [KType Ty_boolean]); ("text", Sch [KRef "attachment"]); ("url", Sch [KType Ty_string; KFormat
  "iri-reference"])]].
Definition s15_attachment : schema := Sch [KType Ty_object; KRequired ["content"]; KOnly ["contentType";
  "encoding"; "content"]; KProperties [("contentType", Sch [KType Ty_string]); ("encoding", Sch [KType
  Ty_string; KEnum ["base64"]]); ("content", Sch [KType Ty_string])]].
Definition s15_hash : schema := Sch [KType Ty_object; KRequired ["alg"; "content"]; KOnly ["alg"; "content"];
  KProperties [("alg", Sch [KRef "hash-alg"]); ("content", Sch [KRef "hash-content"])]].
Definition s15_hash_alg : schema := Sch [KType Ty_string; KEnum ["MD5"; "SHA-1"; "SHA-256"; "SHA-384";
  "SHA-512"; "SHA3-256"; "SHA3-384"; "SHA3-512"; "BLAKE2b-256"; "BLAKE2b-384"; "BLAKE2b-512"; "BLAKE3"]].
Definition s15_hash_content : schema := Sch [KType Ty_string; KPattern pattern_3].
Definition s15_license : schema := Sch [KType Ty_object; KOneOf [Sch [KRequired ["id"]]; Sch [KRequired
  ["name"]]]; KOnly ["bom-ref"; "id"; "name"; "text"; "url"; "licensing"; "properties"]; KProperties
  [("bom-ref", Sch [KRef "refType"]); ("id", Sch [KRef "spdx"]); ("name", Sch [KType Ty_string]); ("text", Sch
  [KRef "attachment"]); ("url", Sch [KType Ty_string; KFormat "iri-reference"]); ("licensing", Sch [KType
  Ty_object; KOnly ["altIds"; "licensor"; "licensee"; "purchaser"; "purchaseOrder"; "licenseTypes";
  "lastRenewal"; "expiration"]; KProperties [("altIds", Sch [KType Ty_array; KItems (Sch [KType Ty_string])]);
  ("licensor", Sch [KType Ty_object; KOnly ["organization"; "individual"]; KProperties [("organization", Sch
  [KRef "organizationalEntity"]); ("individual", Sch [KRef "organizationalContact"])]; KOneOf [Sch [KRequired
  ["organization"]]; Sch [KRequired ["individual"]]]]); ("licensee", Sch [KType Ty_object; KOnly
  ["organization"; "individual"]; KProperties [("organization", Sch [KRef "organizationalEntity"]);
  ("individual", Sch [KRef "organizationalContact"])]; KOneOf [Sch [KRequired ["organization"]]; Sch
  [KRequired ["individual"]]]]); ("purchaser", Sch [KType Ty_object; KOnly ["organization"; "individual"];
  KProperties [("organization", Sch [KRef "organizationalEntity"]); ("individual", Sch [KRef
  "organizationalContact"])]; KOneOf [Sch [KRequired ["organization"]]; Sch [KRequired ["individual"]]]]);
  ("purchaseOrder", Sch [KType Ty_string]); ("licenseTypes", Sch [KType Ty_array; KItems (Sch [KType
  Ty_string; KEnum ["academic"; "appliance"; "client-access"; "concurrent-user"; "core-points";
  "custom-metric"; "device"; "evaluation"; "named-user"; "node-locked"; "oem"; "perpetual";
  "processor-points"; "subscription"; "user"; "other"]])]); ("lastRenewal", Sch [KType Ty_string; KFormat
  "date-time"]); ("expiration", Sch [KType Ty_string; KFormat "date-time"])]]); ("properties", Sch [KType
  Ty_array; KItems (Sch [KRef "property"])])]].
Definition s15_licenseChoice : schema := Sch [KType Ty_array; KOneOf [Sch [KType Ty_array; KItems (Sch [KType
  Ty_object; KRequired ["license"]; KOnly ["license"]; KProperties [("license", Sch [KRef "license"])]])]; Sch
  [KType Ty_array; KMinItems 1%N; KMaxItems 1%N; KTuple [Sch [KType Ty_object; KOnly ["expression";
  "bom-ref"]; KRequired ["expression"]; KProperties [("expression", Sch [KType Ty_string]); ("bom-ref", Sch
  [KRef "refType"])]]]]]].
Definition s15_commit : schema := Sch [KType Ty_object; KOnly ["uid"; "url"; "author"; "committer";
  "message"]; KProperties [("uid", Sch [KType Ty_string]); ("url", Sch [KType Ty_string; KFormat
  "iri-reference"]); ("author", Sch [KRef "identifiableAction"]); ("committer", Sch [KRef
  "identifiableAction"]); ("message", Sch [KType Ty_string])]].
Definition s15_patch : schema := Sch [KType Ty_object; KRequired ["type"]; KOnly ["type"; "diff"; "resolves"];
  KProperties [("type", Sch [KType Ty_string; KEnum ["unofficial"; "monkey"; "backport"; "cherry-pick"]]);
  ("diff", Sch [KRef "diff"]); ("resolves", Sch [KType Ty_array; KItems (Sch [KRef "issue"])])]].
Definition s15_diff : schema := Sch [KType Ty_object; KOnly ["text"; "url"]; KProperties [("text", Sch [KRef
  "attachment"]); ("url", Sch [KType Ty_string; KFormat "iri-reference"])]].
Definition s15_issue : schema := Sch [KType Ty_object; KRequired ["type"]; KOnly ["type"; "id"; "name";
  "description"; "source"; "references"]; KProperties [("type", Sch [KType Ty_string; KEnum ["defect";
  "enhancement"; "security"]]); ("id", Sch [KType Ty_string]); ("name", Sch [KType Ty_string]);
  ("description", Sch [KType Ty_string]); ("source", Sch [KType Ty_object; KOnly ["name"; "url"]; KProperties
  [("name", Sch [KType Ty_string]); ("url", Sch [KType Ty_string; KFormat "iri-reference"])]]); ("references",
  Sch [KType Ty_array; KItems (Sch [KType Ty_string; KFormat "iri-reference"])])]].
Definition s15_identifiableAction : schema := Sch [KType Ty_object; KOnly ["timestamp"; "name"; "email"];
  KProperties [("timestamp", Sch [KType Ty_string; KFormat "date-time"]); ("name", Sch [KType Ty_string]);
  ("email", Sch [KType Ty_string; KFormat "idn-email"])]].
Definition s15_externalReference : schema := Sch [KType Ty_object; KRequired ["url"; "type"]; KOnly ["url";
  "comment"; "type"; "hashes"]; KProperties [("url", Sch [KAnyOf [Sch [KType Ty_string; KFormat
  "iri-reference"]; Sch [KRef "bomLink"]]]); ("comment", Sch [KType Ty_string]); ("type", Sch [KType
  Ty_string; KEnum ["vcs"; "issue-tracker"; "website"; "advisories"; "bom"; "mailing-list"; "social"; "chat";
  "documentation"; "support"; "distribution"; "distribution-intake"; "license"; "build-meta"; "build-system";
  "release-notes"; "security-contact"; "model-card"; "log"; "configuration"; "evidence"; "formulation";
  "attestation"; "threat-model"; "adversary-model"; "risk-assessment"; "vulnerability-assertion";
  "exploitability-statement"; "pentest-report"; "static-analysis-report"; "dynamic-analysis-report";
  "runtime-analysis-report"; "component-analysis-report"; "maturity-report"; "certification-report";
  "codified-infrastructure"; "quality-metrics"; "poam"; "other"]]); ("hashes", Sch [KType Ty_array; KItems
  (Sch [KRef "hash"])])]].
Definition s15_dependency : schema := Sch [KType Ty_object; KRequired ["ref"]; KOnly ["ref"; "dependsOn"];
  KProperties [("ref", Sch [KRef "refLinkType"]); ("dependsOn", Sch [KType Ty_array; KUnique; KItems (Sch
  [KRef "refLinkType"])])]].
Definition s15_service : schema := Sch [KType Ty_object; KRequired ["name"]; KOnly ["bom-ref"; "provider";
  "group"; "name"; "version"; "description"; "endpoints"; "authenticated"; "x-trust-boundary"; "trustZone";
  "data"; "licenses"; "externalReferences"; "services"; "releaseNotes"; "properties"; "signature"];
  KProperties [("bom-ref", Sch [KRef "refType"]); ("provider", Sch [KRef "organizationalEntity"]); ("group",
  Sch [KType Ty_string]); ("name", Sch [KType Ty_string]); ("version", Sch [KType Ty_string]); ("description",
  Sch [KType Ty_string]); ("endpoints", Sch [KType Ty_array; KItems (Sch [KType Ty_string; KFormat
  "iri-reference"])]); ("authenticated", Sch [KType Ty_boolean]); ("x-trust-boundary", Sch [KType
  Ty_boolean]); ("trustZone", Sch [KType Ty_string]); ("data", Sch [KType Ty_array; KItems (Sch [KRef
  "serviceData"])]); ("licenses", Sch [KRef "licenseChoice"]); ("externalReferences", Sch [KType Ty_array;
  KItems (Sch [KRef "externalReference"])]); ("services", Sch [KType Ty_array; KItems (Sch [KRef "service"]);
  KUnique]); ("releaseNotes", Sch [KRef "releaseNotes"]); ("properties", Sch [KType Ty_array; KItems (Sch
  [KRef "property"])]); ("signature", Sch [KRef "signature"])]].
Definition s15_serviceData : schema := Sch [KType Ty_object; KRequired ["flow"; "classification"]; KOnly
  ["flow"; "classification"; "name"; "description"; "governance"; "source"; "destination"]; KProperties
  [("flow", Sch [KRef "dataFlowDirection"]); ("classification", Sch [KRef "dataClassification"]); ("name", Sch
  [KType Ty_string]); ("description", Sch [KType Ty_string]); ("governance", Sch [KRef "dataGovernance"]);
  ("source", Sch [KType Ty_array; KItems (Sch [KAnyOf [Sch [KType Ty_string; KFormat "iri-reference"]; Sch
  [KRef "bomLinkElementType"]]])]); ("destination", Sch [KType Ty_array; KItems (Sch [KAnyOf [Sch [KType
  Ty_string; KFormat "iri-reference"]; Sch [KRef "bomLinkElementType"]]])])]].
Definition s15_dataFlowDirection : schema := Sch [KType Ty_string; KEnum ["inbound"; "outbound";
  "bi-directional"; "unknown"]].
Definition s15_copyright : schema := Sch [KType Ty_object; KRequired ["text"]; KOnly ["text"]; KProperties
  [("text", Sch [KType Ty_string])]].
Definition s15_componentEvidence : schema := Sch [KType Ty_object; KOnly ["identity"; "occurrences";
  "callstack"; "licenses"; "copyright"]; KProperties [("identity", Sch [KType Ty_object; KRequired ["field"];
  KOnly ["field"; "confidence"; "methods"; "tools"]; KProperties [("field", Sch [KType Ty_string; KEnum
  ["group"; "name"; "version"; "purl"; "cpe"; "swid"; "hash"]]); ("confidence", Sch [KType Ty_number; KMinimum
  0%Z; KMaximum 1%Z]); ("methods", Sch [KType Ty_array; KItems (Sch [KType Ty_object; KRequired ["technique";
  "confidence"]; KOnly ["technique"; "confidence"; "value"]; KProperties [("technique", Sch [KType Ty_string;
  KEnum ["source-code-analysis"; "binary-analysis"; "manifest-analysis"; "ast-fingerprint"; "hash-comparison";
  "instrumentation"; "dynamic-analysis"; "filename"; "attestation"; "other"]]); ("confidence", Sch [KType
  Ty_number; KMinimum 0%Z; KMaximum 1%Z]); ("value", Sch [KType Ty_string])]])]); ("tools", Sch [KType
  Ty_array; KUnique; KItems (Sch [KAnyOf [Sch [KRef "refLinkType"]; Sch [KRef "bomLinkElementType"]]])])]]);
  ("occurrences", Sch [KType Ty_array; KItems (Sch [KType Ty_object; KRequired ["location"]; KOnly ["bom-ref";
  "location"]; KProperties [("bom-ref", Sch [KRef "refType"]); ("location", Sch [KType Ty_string])]])]);
  ("callstack", Sch [KType Ty_object; KOnly ["frames"]; KProperties [("frames", Sch [KType Ty_array; KItems
  (Sch [KType Ty_object; KRequired ["module"]; KOnly ["package"; "module"; "function"; "parameters"; "line";
  "column"; "fullFilename"]; KProperties [("package", Sch [KType Ty_string]); ("module", Sch [KType
  Ty_string]); ("function", Sch [KType Ty_string]); ("parameters", Sch [KType Ty_array; KItems (Sch [KType
  Ty_string])]); ("line", Sch [KType Ty_integer]); ("column", Sch [KType Ty_integer]); ("fullFilename", Sch
  [KType Ty_string])]])])]]); ("licenses", Sch [KRef "licenseChoice"]); ("copyright", Sch [KType Ty_array;
  KItems (Sch [KRef "copyright"])])]].
Definition s15_compositions : schema := Sch [KType Ty_object; KRequired ["aggregate"]; KOnly ["bom-ref";
  "aggregate"; "assemblies"; "dependencies"; "vulnerabilities"; "signature"]; KProperties [("bom-ref", Sch
  [KRef "refType"]); ("aggregate", Sch [KRef "aggregateType"]); ("assemblies", Sch [KType Ty_array; KUnique;
  KItems (Sch [KAnyOf [Sch [KRef "refLinkType"]; Sch [KRef "bomLinkElementType"]]])]); ("dependencies", Sch
  [KType Ty_array; KUnique; KItems (Sch [KType Ty_string])]); ("vulnerabilities", Sch [KType Ty_array;
  KUnique; KItems (Sch [KType Ty_string])]); ("signature", Sch [KRef "signature"])]].
Definition s15_aggregateType : schema := Sch [KType Ty_string; KEnum ["complete"; "incomplete";
  "incomplete_first_party_only"; "incomplete_first_party_proprietary_only";
  "incomplete_first_party_opensource_only"; "incomplete_third_party_only";
  "incomplete_third_party_proprietary_only"; "incomplete_third_party_opensource_only"; "unknown";
  "not_specified"]].
Definition s15_property : schema := Sch [KType Ty_object; KProperties [("name", Sch [KType Ty_string]);
  ("value", Sch [KType Ty_string])]].
Definition s15_localeType : schema := Sch [KType Ty_string; KPattern pattern_4].
Definition s15_releaseType : schema := Sch [KType Ty_string].
Definition s15_note : schema := Sch [KType Ty_object; KRequired ["text"]; KOnly ["locale"; "text"];
  KProperties [("locale", Sch [KRef "localeType"]); ("text", Sch [KRef "attachment"])]].
Definition s15_releaseNotes : schema := Sch [KType Ty_object; KRequired ["type"]; KOnly ["type"; "title";
  "featuredImage"; "socialImage"; "description"; "timestamp"; "aliases"; "tags"; "resolves"; "notes";
  "properties"]; KProperties [("type", Sch [KRef "releaseType"]); ("title", Sch [KType Ty_string]);
  ("featuredImage", Sch [KType Ty_string; KFormat "iri-reference"]); ("socialImage", Sch [KType Ty_string;
  KFormat "iri-reference"]); ("description", Sch [KType Ty_string]); ("timestamp", Sch [KType Ty_string;
  KFormat "date-time"]); ("aliases", Sch [KType Ty_array; KItems (Sch [KType Ty_string])]); ("tags", Sch
  [KType Ty_array; KItems (Sch [KType Ty_string])]); ("resolves", Sch [KType Ty_array; KItems (Sch [KRef
  "issue"])]); ("notes", Sch [KType Ty_array; KItems (Sch [KRef "note"])]); ("properties", Sch [KType
  Ty_array; KItems (Sch [KRef "property"])])]].
Definition s15_advisory : schema := Sch [KType Ty_object; KRequired ["url"]; KOnly ["title"; "url"];
  KProperties [("title", Sch [KType Ty_string]); ("url", Sch [KType Ty_string; KFormat "iri-reference"])]].
Definition s15_cwe : schema := Sch [KType Ty_integer; KMinimum 1%Z].
Definition s15_severity : schema := Sch [KType Ty_string; KEnum ["critical"; "high"; "medium"; "low"; "info";
  "none"; "unknown"]].
Definition s15_scoreMethod : schema := Sch [KType Ty_string; KEnum ["CVSSv2"; "CVSSv3"; "CVSSv31"; "CVSSv4";
  "OWASP"; "SSVC"; "other"]].
Definition s15_impactAnalysisState : schema := Sch [KType Ty_string; KEnum ["resolved";
  "resolved_with_pedigree"; "exploitable"; "in_triage"; "false_positive"; "not_affected"]].
Definition s15_impactAnalysisJustification : schema := Sch [KType Ty_string; KEnum ["code_not_present";
  "code_not_reachable"; "requires_configuration"; "requires_dependency"; "requires_environment";
  "protected_by_compiler"; "protected_at_runtime"; "protected_at_perimeter";
  "protected_by_mitigating_control"]].
Definition s15_rating : schema := Sch [KType Ty_object; KOnly ["source"; "score"; "severity"; "method";
  "vector"; "justification"]; KProperties [("source", Sch [KRef "vulnerabilitySource"]); ("score", Sch [KType
  Ty_number]); ("severity", Sch [KRef "severity"]); ("method", Sch [KRef "scoreMethod"]); ("vector", Sch
  [KType Ty_string]); ("justification", Sch [KType Ty_string])]].
Definition s15_vulnerabilitySource : schema := Sch [KType Ty_object; KOnly ["url"; "name"]; KProperties
  [("url", Sch [KType Ty_string]); ("name", Sch [KType Ty_string])]].
Definition s15_vulnerability : schema := Sch [KType Ty_object; KOnly ["bom-ref"; "id"; "source"; "references";
  "ratings"; "cwes"; "description"; "detail"; "recommendation"; "workaround"; "proofOfConcept"; "advisories";
  "created"; "published"; "updated"; "rejected"; "credits"; "tools"; "analysis"; "affects"; "properties"];
  KProperties [("bom-ref", Sch [KRef "refType"]); ("id", Sch [KType Ty_string]); ("source", Sch [KRef
  "vulnerabilitySource"]); ("references", Sch [KType Ty_array; KItems (Sch [KType Ty_object; KRequired ["id";
  "source"]; KOnly ["id"; "source"]; KProperties [("id", Sch [KType Ty_string]); ("source", Sch [KRef
  "vulnerabilitySource"])]])]); ("ratings", Sch [KType Ty_array; KItems (Sch [KRef "rating"])]); ("cwes", Sch
  [KType Ty_array; KItems (Sch [KRef "cwe"])]); ("description", Sch [KType Ty_string]); ("detail", Sch [KType
  Ty_string]); ("recommendation", Sch [KType Ty_string]); ("workaround", Sch [KType Ty_string]);
  ("proofOfConcept", Sch [KType Ty_object; KProperties [("reproductionSteps", Sch [KType Ty_string]);
  ("environment", Sch [KType Ty_string]); ("supportingMaterial", Sch [KType Ty_array; KItems (Sch [KRef
  "attachment"])])]]); ("advisories", Sch [KType Ty_array; KItems (Sch [KRef "advisory"])]); ("created", Sch
  [KType Ty_string; KFormat "date-time"]); ("published", Sch [KType Ty_string; KFormat "date-time"]);
  ("updated", Sch [KType Ty_string; KFormat "date-time"]); ("rejected", Sch [KType Ty_string; KFormat
  "date-time"]); ("credits", Sch [KType Ty_object; KOnly ["organizations"; "individuals"]; KProperties
  [("organizations", Sch [KType Ty_array; KItems (Sch [KRef "organizationalEntity"])]); ("individuals", Sch
  [KType Ty_array; KItems (Sch [KRef "organizationalContact"])])]]); ("tools", Sch [KOneOf [Sch [KType
  Ty_object; KOnly ["components"; "services"]; KProperties [("components", Sch [KType Ty_array; KItems (Sch
  [KRef "component"]); KUnique]); ("services", Sch [KType Ty_array; KItems (Sch [KRef "service"]);
  KUnique])]]; Sch [KType Ty_array; KItems (Sch [KRef "tool"])]]]); ("analysis", Sch [KType Ty_object; KOnly
  ["state"; "justification"; "response"; "detail"; "firstIssued"; "lastUpdated"]; KProperties [("state", Sch
  [KRef "impactAnalysisState"]); ("justification", Sch [KRef "impactAnalysisJustification"]); ("response", Sch
  [KType Ty_array; KItems (Sch [KType Ty_string; KEnum ["can_not_fix"; "will_not_fix"; "update"; "rollback";
  "workaround_available"]])]); ("detail", Sch [KType Ty_string]); ("firstIssued", Sch [KType Ty_string;
  KFormat "date-time"]); ("lastUpdated", Sch [KType Ty_string; KFormat "date-time"])]]); ("affects", Sch
  [KType Ty_array; KUnique; KItems (Sch [KType Ty_object; KRequired ["ref"]; KOnly ["ref"; "versions"];
  KProperties [("ref", Sch [KAnyOf [Sch [KRef "refLinkType"]; Sch [KRef "bomLinkElementType"]]]); ("versions",
  Sch [KType Ty_array; KItems (Sch [KType Ty_object; KOneOf [Sch [KRequired ["version"]]; Sch [KRequired
  ["range"]]]; KOnly ["version"; "range"; "status"]; KProperties [("version", Sch [KRef "version"]); ("range",
  Sch [KRef "range"]); ("status", Sch [KRef "affectedStatus"])]])])]])]); ("properties", Sch [KType Ty_array;
  KItems (Sch [KRef "property"])])]].
Definition s15_affectedStatus : schema := Sch [KType Ty_string; KEnum ["affected"; "unaffected"; "unknown"]].
Definition s15_version : schema := Sch [KType Ty_string; KMinLength 1%N; KMaxLength 1024%N].
Definition s15_range : schema := Sch [KType Ty_string; KMinLength 1%N; KMaxLength 1024%N].
Definition s15_annotations : schema := Sch [KType Ty_object; KRequired ["subjects"; "annotator"; "timestamp";
  "text"]; KOnly ["bom-ref"; "subjects"; "annotator"; "timestamp"; "text"; "signature"]; KProperties
  [("bom-ref", Sch [KRef "refType"]); ("subjects", Sch [KType Ty_array; KUnique; KItems (Sch [KAnyOf [Sch
  [KRef "refLinkType"]; Sch [KRef "bomLinkElementType"]]])]); ("annotator", Sch [KType Ty_object; KOneOf [Sch
  [KRequired ["organization"]]; Sch [KRequired ["individual"]]; Sch [KRequired ["component"]]; Sch [KRequired
  ["service"]]]; KOnly ["organization"; "individual"; "component"; "service"]; KProperties [("organization",
  Sch [KRef "organizationalEntity"]); ("individual", Sch [KRef "organizationalContact"]); ("component", Sch
  [KRef "component"]); ("service", Sch [KRef "service"])]]); ("timestamp", Sch [KType Ty_string; KFormat
  "date-time"]); ("text", Sch [KType Ty_string]); ("signature", Sch [KRef "signature"])]].
Definition s15_modelCard : schema := Sch [KType Ty_object; KOnly ["bom-ref"; "modelParameters";
  "quantitativeAnalysis"; "considerations"; "properties"]; KProperties [("bom-ref", Sch [KRef "refType"]);
  ("modelParameters", Sch [KType Ty_object; KOnly ["approach"; "task"; "architectureFamily";
  "modelArchitecture"; "datasets"; "inputs"; "outputs"]; KProperties [("approach", Sch [KType Ty_object; KOnly
  ["type"]; KProperties [("type", Sch [KType Ty_string; KEnum ["supervised"; "unsupervised";
  "reinforcement-learning"; "semi-supervised"; "self-supervised"]])]]); ("task", Sch [KType Ty_string]);
  ("architectureFamily", Sch [KType Ty_string]); ("modelArchitecture", Sch [KType Ty_string]); ("datasets",
  Sch [KType Ty_array; KItems (Sch [KOneOf [Sch [KRef "componentData"]; Sch [KType Ty_object; KOnly ["ref"];
  KProperties [("ref", Sch [KAnyOf [Sch [KRef "refLinkType"]; Sch [KRef "bomLinkElementType"]]])]]]])]);
  ("inputs", Sch [KType Ty_array; KItems (Sch [KRef "inputOutputMLParameters"])]); ("outputs", Sch [KType
  Ty_array; KItems (Sch [KRef "inputOutputMLParameters"])])]]); ("quantitativeAnalysis", Sch [KType Ty_object;
  KOnly ["performanceMetrics"; "graphics"]; KProperties [("performanceMetrics", Sch [KType Ty_array; KItems
  (Sch [KRef "performanceMetric"])]); ("graphics", Sch [KRef "graphicsCollection"])]]); ("considerations", Sch
  [KType Ty_object; KOnly ["users"; "useCases"; "technicalLimitations"; "performanceTradeoffs";
  "ethicalConsiderations"; "fairnessAssessments"]; KProperties [("users", Sch [KType Ty_array; KItems (Sch
  [KType Ty_string])]); ("useCases", Sch [KType Ty_array; KItems (Sch [KType Ty_string])]);
  ("technicalLimitations", Sch [KType Ty_array; KItems (Sch [KType Ty_string])]); ("performanceTradeoffs", Sch
  [KType Ty_array; KItems (Sch [KType Ty_string])]); ("ethicalConsiderations", Sch [KType Ty_array; KItems
  (Sch [KRef "risk"])]); ("fairnessAssessments", Sch [KType Ty_array; KItems (Sch [KRef
  "fairnessAssessment"])])]]); ("properties", Sch [KType Ty_array; KItems (Sch [KRef "property"])])]].
Definition s15_inputOutputMLParameters : schema := Sch [KType Ty_object; KOnly ["format"]; KProperties
  [("format", Sch [KType Ty_string])]].
Definition s15_componentData : schema := Sch [KType Ty_object; KOnly ["bom-ref"; "type"; "name"; "contents";
  "classification"; "sensitiveData"; "graphics"; "description"; "governance"]; KRequired ["type"]; KProperties
  [("bom-ref", Sch [KRef "refType"]); ("type", Sch [KType Ty_string; KEnum ["source-code"; "configuration";
  "dataset"; "definition"; "other"]]); ("name", Sch [KType Ty_string]); ("contents", Sch [KType Ty_object;
  KOnly ["attachment"; "url"; "properties"]; KProperties [("attachment", Sch [KRef "attachment"]); ("url", Sch
  [KType Ty_string; KFormat "iri-reference"]); ("properties", Sch [KType Ty_array; KItems (Sch [KRef
  "property"])])]]); ("classification", Sch [KRef "dataClassification"]); ("sensitiveData", Sch [KType
  Ty_array; KItems (Sch [KType Ty_string])]); ("graphics", Sch [KRef "graphicsCollection"]); ("description",
  Sch [KType Ty_string]); ("governance", Sch [KRef "dataGovernance"])]].
Definition s15_dataGovernance : schema := Sch [KType Ty_object; KOnly ["custodians"; "stewards"; "owners"];
  KProperties [("custodians", Sch [KType Ty_array; KItems (Sch [KRef "dataGovernanceResponsibleParty"])]);
  ("stewards", Sch [KType Ty_array; KItems (Sch [KRef "dataGovernanceResponsibleParty"])]); ("owners", Sch
  [KType Ty_array; KItems (Sch [KRef "dataGovernanceResponsibleParty"])])]].
Definition s15_dataGovernanceResponsibleParty : schema := Sch [KType Ty_object; KOnly ["organization";
  "contact"]; KProperties [("organization", Sch [KRef "organizationalEntity"]); ("contact", Sch [KRef
  "organizationalContact"])]; KOneOf [Sch [KRequired ["organization"]]; Sch [KRequired ["contact"]]]].
Definition s15_graphicsCollection : schema := Sch [KType Ty_object; KOnly ["description"; "collection"];
  KProperties [("description", Sch [KType Ty_string]); ("collection", Sch [KType Ty_array; KItems (Sch [KRef
  "graphic"])])]].
Definition s15_graphic : schema := Sch [KType Ty_object; KOnly ["name"; "image"]; KProperties [("name", Sch
  [KType Ty_string]); ("image", Sch [KRef "attachment"])]].
Definition s15_performanceMetric : schema := Sch [KType Ty_object; KOnly ["type"; "value"; "slice";
  "confidenceInterval"]; KProperties [("type", Sch [KType Ty_string]); ("value", Sch [KType Ty_string]);
  ("slice", Sch [KType Ty_string]); ("confidenceInterval", Sch [KType Ty_object; KOnly ["lowerBound";
  "upperBound"]; KProperties [("lowerBound", Sch [KType Ty_string]); ("upperBound", Sch [KType
  Ty_string])]])]].
Definition s15_risk : schema := Sch [KType Ty_object; KOnly ["name"; "mitigationStrategy"]; KProperties
  [("name", Sch [KType Ty_string]); ("mitigationStrategy", Sch [KType Ty_string])]].
Definition s15_fairnessAssessment : schema := Sch [KType Ty_object; KOnly ["groupAtRisk"; "benefits"; "harms";
  "mitigationStrategy"]; KProperties [("groupAtRisk", Sch [KType Ty_string]); ("benefits", Sch [KType
  Ty_string]); ("harms", Sch [KType Ty_string]); ("mitigationStrategy", Sch [KType Ty_string])]].
Definition s15_dataClassification : schema := Sch [KType Ty_string].
Definition s15_formula : schema := Sch [KType Ty_object; KOnly ["bom-ref"; "components"; "services";
  "workflows"; "properties"]; KProperties [("bom-ref", Sch [KRef "refType"]); ("components", Sch [KType
  Ty_array; KItems (Sch [KRef "component"]); KUnique]); ("services", Sch [KType Ty_array; KItems (Sch [KRef
  "service"]); KUnique]); ("workflows", Sch [KType Ty_array; KItems (Sch [KRef "workflow"]); KUnique]);
  ("properties", Sch [KType Ty_array; KItems (Sch [KRef "property"])])]].
Definition s15_workflow : schema := Sch [KType Ty_object; KRequired ["bom-ref"; "uid"; "taskTypes"]; KOnly
  ["bom-ref"; "uid"; "name"; "description"; "resourceReferences"; "tasks"; "taskDependencies"; "taskTypes";
  "trigger"; "steps"; "inputs"; "outputs"; "timeStart"; "timeEnd"; "workspaces"; "runtimeTopology";
  "properties"]; KProperties [("bom-ref", Sch [KRef "refType"]); ("uid", Sch [KType Ty_string]); ("name", Sch
  [KType Ty_string]); ("description", Sch [KType Ty_string]); ("resourceReferences", Sch [KType Ty_array;
  KUnique; KItems (Sch [KRef "resourceReferenceChoice"])]); ("tasks", Sch [KType Ty_array; KUnique; KItems
  (Sch [KRef "task"])]); ("taskDependencies", Sch [KType Ty_array; KUnique; KItems (Sch [KRef
  "dependency"])]); ("taskTypes", Sch [KType Ty_array; KItems (Sch [KRef "taskType"])]); ("trigger", Sch [KRef
  "trigger"]); ("steps", Sch [KType Ty_array; KItems (Sch [KRef "step"]); KUnique]); ("inputs", Sch [KType
  Ty_array; KItems (Sch [KRef "inputType"]); KUnique]); ("outputs", Sch [KType Ty_array; KItems (Sch [KRef
  "outputType"]); KUnique]); ("timeStart", Sch [KType Ty_string; KFormat "date-time"]); ("timeEnd", Sch [KType
  Ty_string; KFormat "date-time"]); ("workspaces", Sch [KType Ty_array; KUnique; KItems (Sch [KRef
  "workspace"])]); ("runtimeTopology", Sch [KType Ty_array; KUnique; KItems (Sch [KRef "dependency"])]);
  ("properties", Sch [KType Ty_array; KItems (Sch [KRef "property"])])]].
Definition s15_task : schema := Sch [KType Ty_object; KRequired ["bom-ref"; "uid"; "taskTypes"]; KOnly
  ["bom-ref"; "uid"; "name"; "description"; "resourceReferences"; "taskTypes"; "trigger"; "steps"; "inputs";
  "outputs"; "timeStart"; "timeEnd"; "workspaces"; "runtimeTopology"; "properties"]; KProperties [("bom-ref",
  Sch [KRef "refType"]); ("uid", Sch [KType Ty_string]); ("name", Sch [KType Ty_string]); ("description", Sch
  [KType Ty_string]); ("resourceReferences", Sch [KType Ty_array; KUnique; KItems (Sch [KRef
  "resourceReferenceChoice"])]); ("taskTypes", Sch [KType Ty_array; KItems (Sch [KRef "taskType"])]);
  ("trigger", Sch [KRef "trigger"]); ("steps", Sch [KType Ty_array; KItems (Sch [KRef "step"]); KUnique]);
  ("inputs", Sch [KType Ty_array; KItems (Sch [KRef "inputType"]); KUnique]); ("outputs", Sch [KType Ty_array;
  KItems (Sch [KRef "outputType"]); KUnique]); ("timeStart", Sch [KType Ty_string; KFormat "date-time"]);
  ("timeEnd", Sch [KType Ty_string; KFormat "date-time"]); ("workspaces", Sch [KType Ty_array; KItems (Sch
  [KRef "workspace"]); KUnique]); ("runtimeTopology", Sch [KType Ty_array; KItems (Sch [KRef "dependency"]);
  KUnique]); ("properties", Sch [KType Ty_array; KItems (Sch [KRef "property"])])]].
Definition s15_step : schema := Sch [KType Ty_object; KOnly ["name"; "description"; "commands"; "properties"];
  KProperties [("name", Sch [KType Ty_string]); ("description", Sch [KType Ty_string]); ("commands", Sch
  [KType Ty_array; KItems (Sch [KRef "command"])]); ("properties", Sch [KType Ty_array; KItems (Sch [KRef
  "property"])])]].
Definition s15_command : schema := Sch [KType Ty_object; KOnly ["executed"; "properties"]; KProperties
  [("executed", Sch [KType Ty_string]); ("properties", Sch [KType Ty_array; KItems (Sch [KRef
  "property"])])]].
Definition s15_workspace : schema := Sch [KType Ty_object; KRequired ["bom-ref"; "uid"]; KOnly ["bom-ref";
  "uid"; "name"; "aliases"; "description"; "resourceReferences"; "accessMode"; "mountPath"; "managedDataType";
  "volumeRequest"; "volume"; "properties"]; KProperties [("bom-ref", Sch [KRef "refType"]); ("uid", Sch [KType
  Ty_string]); ("name", Sch [KType Ty_string]); ("aliases", Sch [KType Ty_array; KItems (Sch [KType
  Ty_string])]); ("description", Sch [KType Ty_string]); ("resourceReferences", Sch [KType Ty_array; KUnique;
  KItems (Sch [KRef "resourceReferenceChoice"])]); ("accessMode", Sch [KType Ty_string; KEnum ["read-only";
  "read-write"; "read-write-once"; "write-once"; "write-only"]]); ("mountPath", Sch [KType Ty_string]);
  ("managedDataType", Sch [KType Ty_string]); ("volumeRequest", Sch [KType Ty_string]); ("volume", Sch [KRef
  "volume"]); ("properties", Sch [KType Ty_array; KItems (Sch [KRef "property"])])]].
Definition s15_volume : schema := Sch [KType Ty_object; KOnly ["uid"; "name"; "mode"; "path"; "sizeAllocated";
  "persistent"; "remote"; "properties"]; KProperties [("uid", Sch [KType Ty_string]); ("name", Sch [KType
  Ty_string]); ("mode", Sch [KType Ty_string; KEnum ["filesystem"; "block"]]); ("path", Sch [KType
  Ty_string]); ("sizeAllocated", Sch [KType Ty_string]); ("persistent", Sch [KType Ty_boolean]); ("remote",
  Sch [KType Ty_boolean]); ("properties", Sch [KType Ty_array; KItems (Sch [KRef "property"])])]].
Definition s15_trigger : schema := Sch [KType Ty_object; KOnly ["bom-ref"; "uid"; "name"; "description";
  "resourceReferences"; "type"; "event"; "conditions"; "timeActivated"; "inputs"; "outputs"; "properties"];
  KRequired ["type"; "bom-ref"; "uid"]; KProperties [("bom-ref", Sch [KRef "refType"]); ("uid", Sch [KType
  Ty_string]); ("name", Sch [KType Ty_string]); ("description", Sch [KType Ty_string]); ("resourceReferences",
  Sch [KType Ty_array; KUnique; KItems (Sch [KRef "resourceReferenceChoice"])]); ("type", Sch [KType
  Ty_string; KEnum ["manual"; "api"; "webhook"; "scheduled"]]); ("event", Sch [KRef "event"]); ("conditions",
  Sch [KType Ty_array; KUnique; KItems (Sch [KRef "condition"])]); ("timeActivated", Sch [KType Ty_string;
  KFormat "date-time"]); ("inputs", Sch [KType Ty_array; KItems (Sch [KRef "inputType"]); KUnique]);
  ("outputs", Sch [KType Ty_array; KItems (Sch [KRef "outputType"]); KUnique]); ("properties", Sch [KType
  Ty_array; KItems (Sch [KRef "property"])])]].
Definition s15_event : schema := Sch [KType Ty_object; KOnly ["uid"; "description"; "timeReceived"; "data";
  "source"; "target"; "properties"]; KProperties [("uid", Sch [KType Ty_string]); ("description", Sch [KType
  Ty_string]); ("timeReceived", Sch [KType Ty_string; KFormat "date-time"]); ("data", Sch [KRef
  "attachment"]); ("source", Sch [KRef "resourceReferenceChoice"]); ("target", Sch [KRef
  "resourceReferenceChoice"]); ("properties", Sch [KType Ty_array; KItems (Sch [KRef "property"])])]].
Definition s15_inputType : schema := Sch [KType Ty_object; KOneOf [Sch [KRequired ["resource"]]; Sch
  [KRequired ["parameters"]]; Sch [KRequired ["environmentVars"]]; Sch [KRequired ["data"]]]; KOnly ["source";
  "target"; "resource"; "parameters"; "environmentVars"; "data"; "properties"]; KProperties [("source", Sch
  [KRef "resourceReferenceChoice"]); ("target", Sch [KRef "resourceReferenceChoice"]); ("resource", Sch [KRef
  "resourceReferenceChoice"]); ("parameters", Sch [KType Ty_array; KUnique; KItems (Sch [KRef "parameter"])]);
  ("environmentVars", Sch [KType Ty_array; KUnique; KItems (Sch [KOneOf [Sch [KRef "property"]; Sch [KType
  Ty_string]]])]); ("data", Sch [KRef "attachment"]); ("properties", Sch [KType Ty_array; KItems (Sch [KRef
  "property"])])]].
Definition s15_outputType : schema := Sch [KType Ty_object; KOneOf [Sch [KRequired ["resource"]]; Sch
  [KRequired ["environmentVars"]]; Sch [KRequired ["data"]]]; KOnly ["type"; "source"; "target"; "resource";
  "data"; "environmentVars"; "properties"]; KProperties [("type", Sch [KType Ty_string; KEnum ["artifact";
  "attestation"; "log"; "evidence"; "metrics"; "other"]]); ("source", Sch [KRef "resourceReferenceChoice"]);
  ("target", Sch [KRef "resourceReferenceChoice"]); ("resource", Sch [KRef "resourceReferenceChoice"]);
  ("data", Sch [KRef "attachment"]); ("environmentVars", Sch [KType Ty_array; KItems (Sch [KOneOf [Sch [KRef
  "property"]; Sch [KType Ty_string]]]); KUnique]); ("properties", Sch [KType Ty_array; KItems (Sch [KRef
  "property"])])]].
Definition s15_resourceReferenceChoice : schema := Sch [KType Ty_object; KOnly ["ref"; "externalReference"];
  KProperties [("ref", Sch [KAnyOf [Sch [KRef "refLinkType"]; Sch [KRef "bomLinkElementType"]]]);
  ("externalReference", Sch [KRef "externalReference"])]; KOneOf [Sch [KRequired ["ref"]]; Sch [KRequired
  ["externalReference"]]]].
Definition s15_condition : schema := Sch [KType Ty_object; KOnly ["description"; "expression"; "properties"];
  KProperties [("description", Sch [KType Ty_string]); ("expression", Sch [KType Ty_string]); ("properties",
  Sch [KType Ty_array; KItems (Sch [KRef "property"])])]].
Definition s15_taskType : schema := Sch [KType Ty_string; KEnum ["copy"; "clone"; "lint"; "scan"; "merge";
  "build"; "test"; "deliver"; "deploy"; "release"; "clean"; "other"]].
Definition s15_parameter : schema := Sch [KType Ty_object; KOnly ["name"; "value"; "dataType"]; KProperties
  [("name", Sch [KType Ty_string]); ("value", Sch [KType Ty_string]); ("dataType", Sch [KType Ty_string])]].
Definition s15_signature : schema := Sch [KRef "jsf:signature"].
Definition s15_definitions : list (string * schema) := [("refType", s15_refType); ("refLinkType",
  s15_refLinkType); ("bomLinkDocumentType", s15_bomLinkDocumentType); ("bomLinkElementType",
  s15_bomLinkElementType); ("bomLink", s15_bomLink); ("metadata", s15_metadata); ("tool", s15_tool);
  ("organizationalEntity", s15_organizationalEntity); ("organizationalContact", s15_organizationalContact);
  ("component", s15_component); ("swid", s15_swid); ("attachment", s15_attachment); ("hash", s15_hash);
  ("hash-alg", s15_hash_alg); ("hash-content", s15_hash_content); ("license", s15_license); ("licenseChoice",
  s15_licenseChoice); ("commit", s15_commit); ("patch", s15_patch); ("diff", s15_diff); ("issue", s15_issue);
  ("identifiableAction", s15_identifiableAction); ("externalReference", s15_externalReference); ("dependency",
  s15_dependency); ("service", s15_service); ("serviceData", s15_serviceData); ("dataFlowDirection",
  s15_dataFlowDirection); ("copyright", s15_copyright); ("componentEvidence", s15_componentEvidence);
  ("compositions", s15_compositions); ("aggregateType", s15_aggregateType); ("property", s15_property);
  ("localeType", s15_localeType); ("releaseType", s15_releaseType); ("note", s15_note); ("releaseNotes",
  s15_releaseNotes); ("advisory", s15_advisory); ("cwe", s15_cwe); ("severity", s15_severity); ("scoreMethod",
  s15_scoreMethod); ("impactAnalysisState", s15_impactAnalysisState); ("impactAnalysisJustification",
  s15_impactAnalysisJustification); ("rating", s15_rating); ("vulnerabilitySource", s15_vulnerabilitySource);
  ("vulnerability", s15_vulnerability); ("affectedStatus", s15_affectedStatus); ("version", s15_version);
  ("range", s15_range); ("annotations", s15_annotations); ("modelCard", s15_modelCard);
  ("inputOutputMLParameters", s15_inputOutputMLParameters); ("componentData", s15_componentData);
  ("dataGovernance", s15_dataGovernance); ("dataGovernanceResponsibleParty",
  s15_dataGovernanceResponsibleParty); ("graphicsCollection", s15_graphicsCollection); ("graphic",
  s15_graphic); ("performanceMetric", s15_performanceMetric); ("risk", s15_risk); ("fairnessAssessment",
  s15_fairnessAssessment); ("dataClassification", s15_dataClassification); ("formula", s15_formula);
  ("workflow", s15_workflow); ("task", s15_task); ("step", s15_step); ("command", s15_command); ("workspace",
  s15_workspace); ("volume", s15_volume); ("trigger", s15_trigger); ("event", s15_event); ("inputType",
  s15_inputType); ("outputType", s15_outputType); ("resourceReferenceChoice", s15_resourceReferenceChoice);
  ("condition", s15_condition); ("taskType", s15_taskType); ("parameter", s15_parameter); ("signature",
  s15_signature)] ++ shared_definitions.

Definition schema_root (v : spec_version) : schema :=
  match v with V1_3 => s13_root | V1_4 => s14_root | V1_5 => s15_root end.
Definition schema_definitions (v : spec_version) : list (string * schema) :=
  match v with V1_3 => s13_definitions | V1_4 => s14_definitions | V1_5 => s15_definitions end.
