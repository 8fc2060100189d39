(** * Conformance: GENERATED by tools/gen_conformance.py from /repo/test.

    These are tests of the model, not proofs of properties: every distinct
    unit test of /repo/test/unit, replayed on the binary64 instance of the
    model with the data of /repo/test/data and pandas' default tolerances. *)
From Coq Require Import Floats.
From Verif Require Import Wrapper FloatArith.
Set Warnings "-inexact-float".
Local Open Scope float_scope.

Definition close_to (rtol x e : float) : bool :=
  if is_nan x then is_nan e else if is_nan e then false
  else (abs (x - e) <=? 1e-8 + rtol * abs e).
Definition lastn {B} (k : nat) (l : list B) : list B := skipn (List.length l - k) l.
Definition agrees (rtol : float) (k : nat) (r : result (list float)) (e : list float) : bool :=
  match r with
  | Ok o => (List.length o =? List.length e)%nat
            && forallb (fun b => b) (map2 (close_to rtol) (lastn k o) (lastn k e))
  | Raise _ => false
  end.
Definition rangeindex (n : nat) : option (list Z) := Some (map Z.of_nat (seq 0 n)).

(* test/data/cs-roc.csv 'Close' *)
Definition d000 : list float := [0x1.592a28f5c28f6p+13; 0x1.5cfa8f5c28f5cp+13; 0x1.5804e147ae148p+13; 0x1.5c7ea3d70a3d7p+13; 0x1.557628f5c28f6p+13; 0x1.53a0f5c28f5c3p+13; 0x1.48c28f5c28f5cp+13; 0x1.446370a3d70a4p+13; 0x1.51091eb851eb8p+13; 0x1.4fe2147ae147bp+13; 0x1.548747ae147aep+13; 0x1.50f799999999ap+13; 0x1.4be147ae147aep+13; 0x1.4c0ea3d70a3d7p+13; 0x1.487799999999ap+13; 0x1.4662f5c28f5c3p+13; 0x1.3aa0147ae147bp+13; 0x1.3e8b1eb851eb8p+13; 0x1.3a948f5c28f5cp+13; 0x1.39de000000000p+13].
(* test/data/cs-roc.csv 'ROC' *)
Definition d001 : list float := [nan; nan; nan; nan; nan; nan; nan; nan; nan; nan; nan; nan; (-0x1.eca55fcb6ca57p+1); (-0x1.36540ecaf404ap+2); (-0x1.215238a73b6dcp+2); (-0x1.960251a96af2fp+2); (-0x1.f6fda05f059f0p+2); (-0x1.8d55776b46750p+2); (-0x1.140987f3d4ce8p+2); (-0x1.9f2816ca71d3bp+1)].
(* test/data/cs-rsi.csv 'Close' *)
Definition d002 : list float := [0x1.62b6113404ea5p+5; 0x1.60b8bac710cb3p+5; 0x1.613295e9e1b09p+5; 0x1.5ce631f8a0903p+5; 0x1.629f559b3d07dp+5; 0x1.669c779a6b50bp+5; 0x1.68c395810624ep+5; 0x1.6b65604189375p+5; 0x1.6ebf141205bc0p+5; 0x1.70a92a3055326p+5; 0x1.6f25119ce075fp+5; 0x1.70432ca57a787p+5; 0x1.6ce978d4fdf3bp+5; 0x1.724189374bc6ap+5; 0x1.724189374bc6ap+5; 0x1.7005bc01a36e3p+5; 0x1.70432ca57a787p+5; 0x1.734af4f0d844dp+5; 0x1.71c710cb295eap+5; 0x1.6d26b50b0f27cp+5; 0x1.71b295e9e1b09p+5; 0x1.72044d013a92ap+5; 0x1.6db5a858793dep+5; 0x1.739cac083126fp+5; 0x1.6e449ba5e353fp+5; 0x1.6ad6a161e4f76p+5; 0x1.603afb7e90ff9p+5; 0x1.616d288ce703bp+5; 0x1.61beab367a0f9p+5; 0x1.6489a02752546p+5; 0x1.5b5d2f1a9fbe7p+5; 0x1.554d6a161e4f7p+5; 0x1.590d1b71758e2p+5].
(* test/data/cs-rsi.csv 'RSI' *)
Definition d003 : list float := [nan; nan; nan; nan; nan; nan; nan; nan; nan; nan; nan; nan; nan; nan; 0x1.1f72ce032db1fp+6; 0x1.04fe6fb4c3c19p+6; 0x1.067569b17481bp+6; 0x1.17b24bba12b5ep+6; 0x1.0603b9f127f5fp+6; 0x1.b1d81cf7878b8p+5; 0x1.ea421d10b1fefp+5; 0x1.edd332acfb763p+5; 0x1.a7093964a59c0p+5; 0x1.e8db99d451fc5p+5; 0x1.a1bcb9a9da598p+5; 0x1.7b92684cf073ap+5; 0x1.230282c6ef3d4p+5; 0x1.31082be8bc16ap+5; 0x1.34e92146a1a50p+5; 0x1.56c1cde5d1809p+5; 0x1.1392778140dd4p+5; 0x1.e3ae04c059210p+4; 0x1.1bea23bff8a8fp+5].
(* test/data/cs-stochrsi.csv 'Close' *)
Definition d004 : list float := [0x1.62b6113404ea5p+5; 0x1.60b8bac710cb3p+5; 0x1.613295e9e1b09p+5; 0x1.5ce631f8a0903p+5; 0x1.629f559b3d07dp+5; 0x1.669c779a6b50bp+5; 0x1.68c395810624ep+5; 0x1.6b65604189375p+5; 0x1.6ebf141205bc0p+5; 0x1.70a92a3055326p+5; 0x1.6f25119ce075fp+5; 0x1.70432ca57a787p+5; 0x1.6ce978d4fdf3bp+5; 0x1.724189374bc6ap+5; 0x1.724189374bc6ap+5; 0x1.7005bc01a36e3p+5; 0x1.70432ca57a787p+5; 0x1.734af4f0d844dp+5; 0x1.71c710cb295eap+5; 0x1.6d26b50b0f27cp+5; 0x1.71b295e9e1b09p+5; 0x1.72044d013a92ap+5; 0x1.6db5a858793dep+5; 0x1.739cac083126fp+5; 0x1.6e449ba5e353fp+5; 0x1.6ad6a161e4f76p+5; 0x1.603afb7e90ff9p+5; 0x1.616d288ce703bp+5; 0x1.61beab367a0f9p+5; 0x1.6489a02752546p+5; 0x1.5b5d2f1a9fbe7p+5; 0x1.554d6a161e4f7p+5; 0x1.590d1b71758e2p+5].
(* test/data/cs-stochrsi.csv 'StochRSI(14)' *)
Definition d005 : list float := [nan; nan; nan; nan; nan; nan; nan; nan; nan; nan; nan; nan; nan; nan; nan; nan; nan; nan; nan; nan; nan; nan; nan; nan; nan; nan; nan; 0x1.94a14204874e4p-5; 0x1.1132dda2dde60p-4; 0x1.8ae08bc6723fcp-3; 0x0.0p+0; 0x0.0p+0; 0x1.55f5fe1e7e705p-3].
(* test/data/cs-ultosc.csv 'High' *)
Definition d006 : list float := [0x1.cf793dd97f62bp+5; 0x1.d3b22d0e56042p+5; 0x1.ce1e83e425aeep+5; 0x1.df02a9930be0ep+5; 0x1.d8288ce703afbp+5; 0x1.e1669ad42c3cap+5; 0x1.e25b573eab368p+5; 0x1.ded9e83e425afp+5; 0x1.de36ae7d566cfp+5; 0x1.ddd0b0f27bb30p+5; 0x1.dccb923a29c78p+5; 0x1.f7b5a858793dep+5; 0x1.f221ff2e48e8ap+5; 0x1.f881a36e2eb1cp+5; 0x1.fdecbfb15b574p+5; 0x1.f5f4f0d844d01p+5; 0x1.fbda5119ce076p+5; 0x1.f9dc5d6388659p+5; 0x1.f118c7e28240bp+5; 0x1.e40793dd97f63p+5; 0x1.df16f0068db8cp+5; 0x1.e2989374bc6a8p+5; 0x1.dda7ef9db22d1p+5; 0x1.f1bc01a36e2ebp+5; 0x1.dde4f765fd8aep+5; 0x1.df7ced916872bp+5; 0x1.dd2d0e5604189p+5; 0x1.daf2474538ef3p+5; 0x1.e1b81d7dbf488p+5; 0x1.ed9758e219653p+5].
(* test/data/cs-ultosc.csv 'Low' *)
Definition d007 : list float := [0x1.c428c154c985fp+5; 0x1.c88aa64c2f838p+5; 0x1.c385bc01a36e3p+5; 0x1.cc34d6a161e4fp+5; 0x1.cc9ad42c3c9efp+5; 0x1.cf2786c22680ap+5; 0x1.d01c779a6b50bp+5; 0x1.d37525460aa65p+5; 0x1.d39de69ad42c4p+5; 0x1.d4a71de69ad43p+5; 0x1.d45566cf41f21p+5; 0x1.dcf03afb7e910p+5; 0x1.eae1b089a0275p+5; 0x1.ea016f0068db9p+5; 0x1.f17ec56d5cfabp+5; 0x1.e82c3c9eecbfbp+5; 0x1.ec8e219652bd4p+5; 0x1.e6573eab367a1p+5; 0x1.e2c154c985f07p+5; 0x1.d19ff2e48e8a7p+5; 0x1.d74816f0068dcp+5; 0x1.d8b95810624ddp+5; 0x1.d4bb645a1cac1p+5; 0x1.db85532617c1cp+5; 0x1.ca9d14e3bcd36p+5; 0x1.d8e00d1b71759p+5; 0x1.d6f8a0902de01p+5; 0x1.d1f1758e21965p+5; 0x1.d21a36e2eb1c4p+5; 0x1.e4aacd9e83e42p+5].
(* test/data/cs-ultosc.csv 'Close' *)
Definition d008 : list float := [0x1.cc868db8bac71p+5; 0x1.cd5288ce703b0p+5; 0x1.c758adab9f55ap+5; 0x1.d3c6a7ef9db23p+5; 0x1.d5ed5cfaacd9fp+5; 0x1.e00be0ded288dp+5; 0x1.d39de69ad42c4p+5; 0x1.d96ecbfb15b57p+5; 0x1.d55e9e1b089a0p+5; 0x1.d6f694467381dp+5; 0x1.da63886594af5p+5; 0x1.f485bc01a36e3p+5; 0x1.f0240b780346ep+5; 0x1.f06113404ea4bp+5; 0x1.f41fbe76c8b44p+5; 0x1.f2edc5d638866p+5; 0x1.fb371758e2196p+5; 0x1.ef2f4f0d844d0p+5; 0x1.e4594af4f0d84p+5; 0x1.d8b74bc6a7efap+5; 0x1.d8141205bc01ap+5; 0x1.db1b3d07c84b6p+5; 0x1.d9ac083126e98p+5; 0x1.dd41f212d7732p+5; 0x1.d88e8a71de69bp+5; 0x1.df2b6ae7d566dp+5; 0x1.da4f41f212d77p+5; 0x1.d8f487fcb923ap+5; 0x1.dd6ab367a0f91p+5; 0x1.ebd6a161e4f76p+5].
(* test/data/cs-ultosc.csv 'Ult_Osc' *)
Definition d009 : list float := [nan; nan; nan; nan; nan; nan; nan; nan; nan; nan; nan; nan; nan; nan; nan; nan; nan; nan; nan; nan; nan; nan; nan; nan; nan; nan; nan; nan; 0x1.ab2ec5b078d93p+5; 0x1.c95143bf72713p+5].
(* test/data/cs-soo.csv 'High' *)
Definition d010 : list float := [0x1.fc09374bc6a7fp+6; 0x1.fe76ae7d566cfp+6; 0x1.fa5d495182a99p+6; 0x1.fd63886594af5p+6; 0x1.00589374bc6a8p+7; 0x1.00dd07c84b5ddp+7; 0x1.fd77e90ff9724p+6; 0x1.f9b020c49ba5ep+6; 0x1.fb9916872b021p+6; 0x1.fb6631f8a0903p+6; 0x1.f695810624dd3p+6; 0x1.f6dcc63f14120p+6; 0x1.fca1ff2e48e8ap+6; 0x1.fedc91d14e3bdp+6; 0x1.febdf3b645a1dp+6; 0x1.007212d773190p+7; 0x1.008b851eb851fp+7; 0x1.002fd21ff2e49p+7; 0x1.008b851eb851fp+7; 0x1.fef0f27bb2fecp+6; 0x1.018a3d70a3d71p+7; 0x1.029318fc50481p+7; 0x1.042068db8bac7p+7; 0x1.023c84b5dcc64p+7; 0x1.029318fc50481p+7; 0x1.00f16872b020cp+7; 0x1.002fd21ff2e49p+7; 0x1.014d1b71758e2p+7; 0x1.0246b50b0f27cp+7; 0x1.0147fcb923a2ap+7].
(* test/data/cs-soo.csv 'Low' *)
Definition d011 : list float := [0x1.f56dfa43fe5c9p+6; 0x1.f8a7381d7dbf5p+6; 0x1.f3b7e90ff9724p+6; 0x1.f85ff2e48e8a7p+6; 0x1.fb4793dd97f63p+6; 0x1.f9ed42c3c9eedp+6; 0x1.f822d0e560419p+6; 0x1.f35205bc01a37p+6; 0x1.f99182a9930bep+6; 0x1.f6dcc63f14120p+6; 0x1.f23ef9db22d0ep+6; 0x1.f249374bc6a7fp+6; 0x1.f4468db8bac71p+6; 0x1.fb705532617c2p+6; 0x1.fa860aa64c2f8p+6; 0x1.fb334d6a161e5p+6; 0x1.fad78d4fdf3b6p+6; 0x1.fb334d6a161e5p+6; 0x1.f888b43958106p+6; 0x1.f7b2b020c49bap+6; 0x1.fbf4d6a161e4fp+6; 0x1.ff425aee631f9p+6; 0x1.00f16872b020cp+7; 0x1.0020d1b71758ep+7; 0x1.fe6c710cb295fp+6; 0x1.fe624dd2f1aa0p+6; 0x1.fbfef9db22d0ep+6; 0x1.fb9916872b021p+6; 0x1.fdf22d0e56042p+6; 0x1.fd96872b020c5p+6].
(* test/data/cs-soo.csv 'Close' *)
Definition d012 : list float := [nan; nan; nan; nan; nan; nan; nan; nan; nan; nan; nan; nan; nan; 0x1.fd26809d49518p+6; 0x1.fcb65fd8adabap+6; 0x1.000710cb295eap+7; 0x1.fc6f1a9fbe76dp+6; 0x1.fee6b50b0f27cp+6; 0x1.fc3c1bda5119dp+6; 0x1.fd4f27bb2fec5p+6; 0x1.016bac710cb29p+7; 0x1.ff7f7ced91687p+6; 0x1.01296bb98c7e3p+7; 0x1.01339c0ebedfap+7; 0x1.ffbc9eecbfb16p+6; 0x1.003a027525461p+7; 0x1.fe624dd2f1aa0p+6; 0x1.fe624dd2f1aa0p+6; 0x1.01617c1bda512p+7; 0x1.008b851eb851fp+7].
(* test/data/cs-soo.csv 'SO' *)
Definition d013 : list float := [nan; nan; nan; nan; nan; nan; nan; nan; nan; nan; nan; nan; nan; 0x1.19c0bcbe61d00p+6; 0x1.0e6f85d744f5dp+6; 0x1.64cef566490a3p+6; 0x1.073e0157eed46p+6; 0x1.46fda87a072d2p+6; 0x1.02185e3da2f8cp+6; 0x1.2a1e7d9988d2ap+6; 0x1.8a5365881a155p+6; 0x1.186b0ab2e1694p+6; 0x1.24396feb4a665p+6; 0x1.25abd1676640ap+6; 0x1.e9d9ae924f228p+5; 0x1.e7a67168f8e7ep+5; 0x1.4316bca5375c9p+5; 0x1.4316bca5375c9p+5; 0x1.0b506f262888bp+6; 0x1.c5d9f2ba9d1f6p+5].
(* test/data/cs-soo.csv 'SO_SIG' *)
Definition d014 : list float := [nan; nan; nan; nan; nan; nan; nan; nan; nan; nan; nan; nan; nan; nan; nan; nan; 0x1.28d4299d883bap+6; 0x1.3bae34fc610f1p+6; 0x1.1ac6ad70e6f2fp+6; 0x1.2666d6dc1a47bp+6; 0x1.3cd8c08b75ea6p+6; 0x1.4449a49c2c1b1p+6; 0x1.4252a02320968p+6; 0x1.20c56eac86057p+6; 0x1.14f0b2c83ec89p+6; 0x1.04cea077036cap+6; 0x1.b1879ee02a77ap+5; 0x1.79f14e3bcd35bp+5; 0x1.899a1d323fee3p+5; 0x1.b5308461f9f02p+5].
(* test/data/cs-percentr.csv 'High' *)
Definition d015 : list float := [0x1.fc09374bc6a7fp+6; 0x1.fe76ae7d566cfp+6; 0x1.fa5d495182a99p+6; 0x1.fd63886594af5p+6; 0x1.00589374bc6a8p+7; 0x1.00dd07c84b5ddp+7; 0x1.fd77e90ff9724p+6; 0x1.f9b020c49ba5ep+6; 0x1.fb9916872b021p+6; 0x1.fb6631f8a0903p+6; 0x1.f695810624dd3p+6; 0x1.f6dcc63f14120p+6; 0x1.fca1ff2e48e8ap+6; 0x1.fedc91d14e3bdp+6; 0x1.febdf3b645a1dp+6; 0x1.007212d773190p+7; 0x1.008b851eb851fp+7; 0x1.002fd21ff2e49p+7; 0x1.008b851eb851fp+7; 0x1.fef0f27bb2fecp+6; 0x1.018a3d70a3d71p+7; 0x1.029318fc50481p+7; 0x1.042068db8bac7p+7; 0x1.023c84b5dcc64p+7; 0x1.029318fc50481p+7; 0x1.00f16872b020cp+7; 0x1.002fd21ff2e49p+7; 0x1.014d1b71758e2p+7; 0x1.0246b50b0f27cp+7; 0x1.0147fcb923a2ap+7].
(* test/data/cs-percentr.csv 'Low' *)
Definition d016 : list float := [0x1.f56dfa43fe5c9p+6; 0x1.f8a7381d7dbf5p+6; 0x1.f3b7e90ff9724p+6; 0x1.f85ff2e48e8a7p+6; 0x1.fb4793dd97f63p+6; 0x1.f9ed42c3c9eedp+6; 0x1.f822d0e560419p+6; 0x1.f35205bc01a37p+6; 0x1.f99182a9930bep+6; 0x1.f6dcc63f14120p+6; 0x1.f23ef9db22d0ep+6; 0x1.f249374bc6a7fp+6; 0x1.f4468db8bac71p+6; 0x1.fb705532617c2p+6; 0x1.fa860aa64c2f8p+6; 0x1.fb334d6a161e5p+6; 0x1.fad78d4fdf3b6p+6; 0x1.fb334d6a161e5p+6; 0x1.f888b43958106p+6; 0x1.f7b2b020c49bap+6; 0x1.fbf4d6a161e4fp+6; 0x1.ff425aee631f9p+6; 0x1.00f16872b020cp+7; 0x1.0020d1b71758ep+7; 0x1.fe6c710cb295fp+6; 0x1.fe624dd2f1aa0p+6; 0x1.fbfef9db22d0ep+6; 0x1.fb9916872b021p+6; 0x1.fdf22d0e56042p+6; 0x1.fd96872b020c5p+6].
(* test/data/cs-percentr.csv 'Close' *)
Definition d017 : list float := [nan; nan; nan; nan; nan; nan; nan; nan; nan; nan; nan; nan; nan; 0x1.fd26809d49518p+6; 0x1.fcb65fd8adabap+6; 0x1.000710cb295eap+7; 0x1.fc6f1a9fbe76dp+6; 0x1.fee6b50b0f27cp+6; 0x1.fc3c1bda5119dp+6; 0x1.fd4f27bb2fec5p+6; 0x1.016bac710cb29p+7; 0x1.ff7f7ced91687p+6; 0x1.01296bb98c7e3p+7; 0x1.01339c0ebedfap+7; 0x1.ffbc9eecbfb16p+6; 0x1.003a027525461p+7; 0x1.fe624dd2f1aa0p+6; 0x1.fe624dd2f1aa0p+6; 0x1.01617c1bda512p+7; 0x1.008b851eb851fp+7].
(* test/data/cs-percentr.csv 'Williams_%R' *)
Definition d018 : list float := [nan; nan; nan; nan; nan; nan; nan; nan; nan; nan; nan; nan; nan; (-0x1.d8fd0d0678c00p+4); (-0x1.0320f45176146p+5); (-0x1.598854cdb7ae5p+3); (-0x1.1183fd5022574p+5); (-0x1.24095e17e34b9p+4); (-0x1.1bcf4384ba0e8p+5); (-0x1.97860999dcb58p+4); (-0x1.6b269df97aaacp+0); (-0x1.de53d5347a5b1p+4); (-0x1.af1a4052d666bp+4); (-0x1.a950ba6266fd6p+4); (-0x1.3626516db0dd8p+5); (-0x1.38598e9707182p+5); (-0x1.dce9435ac8a37p+5); (-0x1.dce9435ac8a37p+5); (-0x1.095f21b3aeee9p+5); (-0x1.5a260d4562e0ap+5)].
(* test/data/cs-kama.csv 'Close' *)
Definition d019 : list float := [0x1.b9d70a3d70a3dp+6; 0x1.b733333333333p+6; 0x1.b8ae147ae147bp+6; 0x1.b747ae147ae14p+6; 0x1.b89999999999ap+6; 0x1.b53d70a3d70a4p+6; 0x1.b433333333333p+6; 0x1.afc28f5c28f5cp+6; 0x1.af0a3d70a3d71p+6; 0x1.b4f5c28f5c28fp+6; 0x1.b59999999999ap+6; 0x1.b200000000000p+6; 0x1.afd70a3d70a3dp+6; 0x1.b233333333333p+6; 0x1.b366666666666p+6; 0x1.b9c28f5c28f5cp+6; 0x1.b78f5c28f5c29p+6; 0x1.baccccccccccdp+6; 0x1.bb28f5c28f5c3p+6; 0x1.b8e147ae147aep+6; 0x1.b800000000000p+6; 0x1.b5147ae147ae1p+6; 0x1.aac28f5c28f5cp+6; 0x1.ac47ae147ae14p+6; 0x1.afae147ae147bp+6; 0x1.afccccccccccdp+6; 0x1.aeccccccccccdp+6; 0x1.afe147ae147aep+6; 0x1.a85c28f5c28f6p+6; 0x1.a81eb851eb852p+6; 0x1.ae9999999999ap+6; 0x1.b628f5c28f5c3p+6; 0x1.b90a3d70a3d71p+6; 0x1.b9851eb851eb8p+6; 0x1.bfc28f5c28f5cp+6; 0x1.c65c28f5c28f6p+6; 0x1.c7eb851eb851fp+6; 0x1.c7a3d70a3d70ap+6; 0x1.c27ae147ae148p+6; 0x1.c0ccccccccccdp+6; 0x1.bc66666666666p+6; 0x1.b8b851eb851ecp+6; 0x1.bc851eb851eb8p+6; 0x1.be33333333333p+6; 0x1.c051eb851eb85p+6; 0x1.bfccccccccccdp+6; 0x1.be66666666666p+6; 0x1.bd8f5c28f5c29p+6; 0x1.c100000000000p+6].
(* test/data/cs-kama.csv 'KAMA' *)
Definition d020 : list float := [nan; nan; nan; nan; nan; nan; nan; nan; nan; 0x1.b4f5c28f5c28fp+6; 0x1.b4fad18d25eddp+6; 0x1.b4ddb0142f61fp+6; 0x1.b4782a9930be1p+6; 0x1.b4647496aad1dp+6; 0x1.b45b83cf2cf96p+6; 0x1.b47f04577d955p+6; 0x1.b48cdd0d8cb08p+6; 0x1.b51b823c85c25p+6; 0x1.b5bef5232d2bbp+6; 0x1.b5d3d20f2becfp+6; 0x1.b5dc422036007p+6; 0x1.b5d83be6601bdp+6; 0x1.b58fd0d0678c0p+6; 0x1.b544202d9cf14p+6; 0x1.b52b6d43d0397p+6; 0x1.b4bc04c8bc9cdp+6; 0x1.b44fa5d28d003p+6; 0x1.b3cc9d16fc9bcp+6; 0x1.b1b11a975afb0p+6; 0x1.b0101eabbcb1dp+6; 0x1.affca2120e1f8p+6; 0x1.b007060bb2bbbp+6; 0x1.b109d2391d580p+6; 0x1.b1ed551d68c69p+6; 0x1.b3a5d28d002e2p+6; 0x1.b6b18f3eccc47p+6; 0x1.b9fa9d1f60179p+6; 0x1.bc6e3bcd35a86p+6; 0x1.bdd940357a355p+6; 0x1.be6fc7607c41ap+6; 0x1.be43e8576cce6p+6; 0x1.be32539756c94p+6; 0x1.be2b790fb6567p+6; 0x1.be2ba2be0589bp+6; 0x1.be2ec39799e52p+6; 0x1.be4367e414e7fp+6; 0x1.be467b1c0010cp+6; 0x1.be357d1782d38p+6; 0x1.be3cf91a32b13p+6].
(* test/data/cs-tsi.csv 'Close' *)
Definition d021 : list float := [0x1.0e128f5c28f5cp+10; 0x1.1086666666666p+10; 0x1.1420a3d70a3d7p+10; 0x1.10f5c28f5c28fp+10; 0x1.12b7ae147ae14p+10; 0x1.140b851eb851fp+10; 0x1.1563333333333p+10; 0x1.187999999999ap+10; 0x1.1846666666666p+10; 0x1.19447ae147ae1p+10; 0x1.192a3d70a3d71p+10; 0x1.1965c28f5c28fp+10; 0x1.1dad70a3d70a4p+10; 0x1.1cf1eb851eb85p+10; 0x1.1b91eb851eb85p+10; 0x1.19351eb851eb8p+10; 0x1.1f2ae147ae148p+10; 0x1.1d8a3d70a3d71p+10; 0x1.1eecccccccccdp+10; 0x1.1e2eb851eb852p+10; 0x1.1d4cccccccccdp+10; 0x1.1e8f5c28f5c29p+10; 0x1.1c41eb851eb85p+10; 0x1.2230000000000p+10; 0x1.21fe147ae147bp+10; 0x1.2183d70a3d70ap+10; 0x1.234999999999ap+10; 0x1.23547ae147ae1p+10; 0x1.247147ae147aep+10; 0x1.2686666666666p+10; 0x1.2573d70a3d70ap+10; 0x1.260c28f5c28f6p+10; 0x1.282d70a3d70a4p+10; 0x1.237999999999ap+10; 0x1.268ae147ae148p+10; 0x1.2710a3d70a3d7p+10; 0x1.27c51eb851eb8p+10; 0x1.2867ae147ae14p+10; 0x1.2868f5c28f5c3p+10; 0x1.279cccccccccdp+10; 0x1.27f1eb851eb85p+10; 0x1.27d0a3d70a3d7p+10; 0x1.281851eb851ecp+10; 0x1.2a647ae147ae1p+10; 0x1.2b7d70a3d70a4p+10; 0x1.3143d70a3d70ap+10; 0x1.3276666666666p+10; 0x1.31d0000000000p+10; 0x1.2f5999999999ap+10; 0x1.30ad70a3d70a4p+10; 0x1.2f628f5c28f5cp+10; 0x1.2bcd70a3d70a4p+10; 0x1.2b70000000000p+10; 0x1.2695c28f5c28fp+10; 0x1.26a5c28f5c28fp+10; 0x1.2b2c28f5c28f6p+10; 0x1.2beeb851eb852p+10; 0x1.2b75c28f5c28fp+10; 0x1.272eb851eb852p+10; 0x1.2b96666666666p+10; 0x1.295999999999ap+10; 0x1.28f0a3d70a3d7p+10; 0x1.2723333333333p+10; 0x1.2d847ae147ae1p+10; 0x1.3161eb851eb85p+10; 0x1.322d70a3d70a4p+10; 0x1.31c7ae147ae14p+10; 0x1.31f0000000000p+10; 0x1.3311eb851eb85p+10; 0x1.3440000000000p+10; 0x1.361999999999ap+10; 0x1.361d70a3d70a4p+10; 0x1.3665c28f5c28fp+10; 0x1.34ceb851eb852p+10; 0x1.36b7ae147ae14p+10; 0x1.36fa3d70a3d71p+10; 0x1.37c51eb851eb8p+10; 0x1.39a6666666666p+10; 0x1.3ab5c28f5c28fp+10; 0x1.3a3147ae147aep+10; 0x1.3a628f5c28f5cp+10; 0x1.3aa0a3d70a3d7p+10; 0x1.3af1eb851eb85p+10; 0x1.3a7851eb851ecp+10; 0x1.3a68f5c28f5c3p+10; 0x1.3df8f5c28f5c3p+10; 0x1.3d8cccccccccdp+10; 0x1.3f23d70a3d70ap+10; 0x1.3e76666666666p+10; 0x1.3de0000000000p+10; 0x1.3d70000000000p+10; 0x1.3e9eb851eb852p+10; 0x1.417d70a3d70a4p+10; 0x1.40f0a3d70a3d7p+10; 0x1.434f5c28f5c29p+10; 0x1.43c147ae147aep+10; 0x1.407ae147ae148p+10; 0x1.4010a3d70a3d7p+10; 0x1.40d6666666666p+10; 0x1.42b5c28f5c28fp+10; 0x1.42cb851eb851fp+10; 0x1.442851eb851ecp+10; 0x1.44e28f5c28f5cp+10; 0x1.3f15c28f5c28fp+10; 0x1.4187ae147ae14p+10; 0x1.46e5c28f5c28fp+10; 0x1.4601eb851eb85p+10; 0x1.46c6666666666p+10; 0x1.47b7ae147ae14p+10; 0x1.49c3333333333p+10; 0x1.4b247ae147ae1p+10; 0x1.4a3851eb851ecp+10; 0x1.4a77ae147ae14p+10; 0x1.4c4999999999ap+10; 0x1.4d147ae147ae1p+10; 0x1.4c00a3d70a3d7p+10; 0x1.4e147ae147ae1p+10; 0x1.4f1b851eb851fp+10; 0x1.4fc0a3d70a3d7p+10; 0x1.48dc28f5c28f6p+10; 0x1.46d999999999ap+10; 0x1.4686666666666p+10; 0x1.49f851eb851ecp+10; 0x1.4bce147ae147bp+10; 0x1.46951eb851eb8p+10; 0x1.471c28f5c28f6p+10; 0x1.4cbe147ae147bp+10; 0x1.4a4999999999ap+10; 0x1.478851eb851ecp+10; 0x1.4a747ae147ae1p+10; 0x1.4a0147ae147aep+10; 0x1.43c70a3d70a3dp+10; 0x1.4611eb851eb85p+10; 0x1.4418f5c28f5c3p+10; 0x1.4077ae147ae14p+10; 0x1.3a3851eb851ecp+10; 0x1.3e6e147ae147bp+10; 0x1.3fccccccccccdp+10; 0x1.449851eb851ecp+10; 0x1.437147ae147aep+10; 0x1.44628f5c28f5cp+10; 0x1.476a3d70a3d71p+10; 0x1.4873333333333p+10; 0x1.478c28f5c28f6p+10; 0x1.49dc28f5c28f6p+10; 0x1.4c10a3d70a3d7p+10; 0x1.4b751eb851eb8p+10; 0x1.4d1a3d70a3d71p+10; 0x1.4d37ae147ae14p+10; 0x1.4d2851eb851ecp+10; 0x1.4de28f5c28f5cp+10; 0x1.4d60a3d70a3d7p+10; 0x1.4c0ae147ae148p+10; 0x1.4b1d70a3d70a4p+10; 0x1.488a3d70a3d71p+10; 0x1.489a3d70a3d71p+10; 0x1.48a147ae147aep+10; 0x1.49eb851eb851fp+10; 0x1.4648f5c28f5c3p+10; 0x1.4827ae147ae14p+10; 0x1.4c970a3d70a3dp+10; 0x1.4e5851eb851ecp+10; 0x1.4dd0000000000p+10; 0x1.50cf5c28f5c29p+10; 0x1.52ea3d70a3d71p+10; 0x1.541eb851eb852p+10; 0x1.54e70a3d70a3dp+10; 0x1.544e147ae147bp+10; 0x1.5327ae147ae14p+10; 0x1.50d47ae147ae1p+10; 0x1.4dc6666666666p+10; 0x1.4f0cccccccccdp+10; 0x1.50928f5c28f5cp+10; 0x1.534a3d70a3d71p+10; 0x1.4f851eb851eb8p+10; 0x1.512999999999ap+10; 0x1.4e7147ae147aep+10; 0x1.4c5e147ae147bp+10; 0x1.4c3eb851eb852p+10; 0x1.4f2b851eb851fp+10; 0x1.4fe6666666666p+10; 0x1.4d5147ae147aep+10; 0x1.4957ae147ae14p+10; 0x1.4911eb851eb85p+10; 0x1.4a1e147ae147bp+10; 0x1.4b6c28f5c28f6p+10; 0x1.4cc6666666666p+10; 0x1.504cccccccccdp+10; 0x1.48a3333333333p+10; 0x1.483c28f5c28f6p+10; 0x1.450a3d70a3d71p+10; 0x1.418ae147ae148p+10; 0x1.413c28f5c28f6p+10; 0x1.3fe3d70a3d70ap+10; 0x1.4240000000000p+10; 0x1.3dbeb851eb852p+10; 0x1.3df51eb851eb8p+10; 0x1.41f7ae147ae14p+10; 0x1.3c5ae147ae148p+10; 0x1.3ce8f5c28f5c3p+10; 0x1.3de0000000000p+10; 0x1.3f970a3d70a3dp+10; 0x1.43e147ae147aep+10; 0x1.41c8f5c28f5c3p+10; 0x1.40e0000000000p+10; 0x1.3d1cccccccccdp+10; 0x1.4006666666666p+10; 0x1.442ae147ae148p+10; 0x1.46da3d70a3d71p+10; 0x1.4a28f5c28f5c3p+10; 0x1.4eeae147ae148p+10; 0x1.4e7851eb851ecp+10; 0x1.4ece147ae147bp+10; 0x1.524e147ae147bp+10; 0x1.4ff3333333333p+10; 0x1.49df5c28f5c29p+10; 0x1.4868f5c28f5c3p+10; 0x1.496e147ae147bp+10; 0x1.4737ae147ae14p+10; 0x1.4908f5c28f5c3p+10; 0x1.465c28f5c28f6p+10; 0x1.4baeb851eb852p+10; 0x1.4b75c28f5c28fp+10; 0x1.4ff3333333333p+10; 0x1.504147ae147aep+10; 0x1.4e5b851eb851fp+10; 0x1.4cfc28f5c28f6p+10; 0x1.4638f5c28f5c3p+10; 0x1.452ae147ae148p+10; 0x1.4311eb851eb85p+10; 0x1.41bc28f5c28f6p+10; 0x1.3983333333333p+10; 0x1.3b15c28f5c28fp+10; 0x1.2c047ae147ae1p+10; 0x1.2bd851eb851ecp+10; 0x1.17dd70a3d70a4p+10; 0x1.2521eb851eb85p+10; 0x1.1830a3d70a3d7p+10; 0x1.2528f5c28f5c3p+10; 0x1.26b3d70a3d70ap+10; 0x1.2d1f5c28f5c29p+10; 0x1.2a30a3d70a3d7p+10; 0x1.2a7851eb851ecp+10; 0x1.1d2999999999ap+10; 0x1.18e1eb851eb85p+10; 0x1.18f47ae147ae1p+10; 0x1.2296666666666p+10; 0x1.2666666666666p+10; 0x1.21d147ae147aep+10; 0x1.2633333333333p+10; 0x1.2e851eb851eb8p+10; 0x1.2f3ae147ae148p+10; 0x1.30b8f5c28f5c3p+10; 0x1.2d1ae147ae148p+10; 0x1.257e147ae147bp+10; 0x1.234f5c28f5c29p+10; 0x1.2ba7ae147ae14p+10; 0x1.287999999999ap+10; 0x1.208eb851eb852p+10; 0x1.229147ae147aep+10; 0x1.2537ae147ae14p+10; 0x1.292b851eb851fp+10; 0x1.2e470a3d70a3dp+10; 0x1.3000a3d70a3d7p+10; 0x1.2d05c28f5c28fp+10; 0x1.2c85c28f5c28fp+10; 0x1.23b0a3d70a3d7p+10; 0x1.1a63d70a3d70ap+10; 0x1.1c1b851eb851fp+10; 0x1.22bcccccccccdp+10; 0x1.25d851eb851ecp+10; 0x1.1fc3d70a3d70ap+10; 0x1.221999999999ap+10; 0x1.1adae147ae148p+10; 0x1.12ceb851eb852p+10; 0x1.18fcccccccccdp+10; 0x1.1e028f5c28f5cp+10; 0x1.233e147ae147bp+10; 0x1.20dd70a3d70a4p+10; 0x1.2ab8f5c28f5c3p+10; 0x1.2ae28f5c28f5cp+10; 0x1.2dd0000000000p+10; 0x1.2cea3d70a3d71p+10; 0x1.32251eb851eb8p+10; 0x1.2c370a3d70a3dp+10; 0x1.325851eb851ecp+10; 0x1.2e7851eb851ecp+10; 0x1.2fd8f5c28f5c3p+10; 0x1.3590000000000p+10; 0x1.398c28f5c28f6p+10; 0x1.3343333333333p+10; 0x1.3680000000000p+10; 0x1.4125c28f5c28fp+10; 0x1.41451eb851eb8p+10; 0x1.3953333333333p+10; 0x1.3091eb851eb85p+10; 0x1.357999999999ap+10; 0x1.3b4999999999ap+10; 0x1.394eb851eb852p+10; 0x1.3b47ae147ae14p+10; 0x1.3efae147ae148p+10; 0x1.3346666666666p+10; 0x1.35ecccccccccdp+10; 0x1.3bf6666666666p+10; 0x1.38f1eb851eb85p+10; 0x1.3a73d70a3d70ap+10; 0x1.353a3d70a3d71p+10; 0x1.300851eb851ecp+10; 0x1.2fe999999999ap+10; 0x1.2a3eb851eb852p+10; 0x1.29028f5c28f5cp+10; 0x1.22728f5c28f5cp+10; 0x1.21aae147ae148p+10; 0x1.2a23333333333p+10; 0x1.2acc28f5c28f6p+10; 0x1.37bd70a3d70a4p+10; 0x1.37251eb851eb8p+10; 0x1.3711eb851eb85p+10; 0x1.3a451eb851eb8p+10; 0x1.3a9e147ae147bp+10; 0x1.3b40a3d70a3d7p+10; 0x1.3496666666666p+10; 0x1.39cc28f5c28f6p+10; 0x1.351e147ae147bp+10; 0x1.326eb851eb852p+10; 0x1.2ef47ae147ae1p+10; 0x1.2ff0000000000p+10; 0x1.30ea3d70a3d71p+10; 0x1.2d56666666666p+10; 0x1.3653333333333p+10; 0x1.36ee147ae147bp+10; 0x1.3980000000000p+10; 0x1.3c551eb851eb8p+10; 0x1.3c5b851eb851fp+10; 0x1.3868f5c28f5c3p+10; 0x1.3bc147ae147aep+10; 0x1.3a66666666666p+10; 0x1.3f43d70a3d70ap+10; 0x1.3f53333333333p+10; 0x1.4043d70a3d70ap+10; 0x1.3f73d70a3d70ap+10; 0x1.402cccccccccdp+10; 0x1.43051eb851eb8p+10; 0x1.431eb851eb852p+10; 0x1.43e0000000000p+10; 0x1.4245c28f5c28fp+10; 0x1.436ae147ae148p+10; 0x1.47028f5c28f5cp+10; 0x1.48a0000000000p+10; 0x1.48d851eb851ecp+10; 0x1.4900000000000p+10; 0x1.48a999999999ap+10; 0x1.4b83d70a3d70ap+10; 0x1.499b851eb851fp+10; 0x1.49151eb851eb8p+10; 0x1.4840a3d70a3d7p+10; 0x1.481a3d70a3d71p+10; 0x1.4b05c28f5c28fp+10; 0x1.4b628f5c28f5cp+10; 0x1.503999999999ap+10; 0x1.50151eb851eb8p+10; 0x1.50c3333333333p+10; 0x1.517d70a3d70a4p+10; 0x1.51fcccccccccdp+10; 0x1.4fa8f5c28f5c3p+10; 0x1.51f147ae147aep+10; 0x1.51a0000000000p+10; 0x1.4fceb851eb852p+10; 0x1.53828f5c28f5cp+10; 0x1.544eb851eb852p+10; 0x1.548d70a3d70a4p+10; 0x1.536a3d70a3d71p+10; 0x1.54dd70a3d70a4p+10; 0x1.556f5c28f5c29p+10; 0x1.55e5c28f5c28fp+10; 0x1.570b851eb851fp+10; 0x1.556b851eb851fp+10; 0x1.5785c28f5c28fp+10; 0x1.566851eb851ecp+10; 0x1.55151eb851eb8p+10; 0x1.4fd70a3d70a3dp+10; 0x1.522851eb851ecp+10; 0x1.557a3d70a3d71p+10; 0x1.56b7ae147ae14p+10; 0x1.56c5c28f5c28fp+10; 0x1.5cfcccccccccdp+10; 0x1.5c91eb851eb85p+10; 0x1.5ea6666666666p+10; 0x1.5f0ae147ae148p+10; 0x1.6070000000000p+10; 0x1.5f6147ae147aep+10; 0x1.5eb8f5c28f5c3p+10; 0x1.5c31eb851eb85p+10; 0x1.5d470a3d70a3dp+10; 0x1.6220a3d70a3d7p+10; 0x1.612147ae147aep+10; 0x1.5f628f5c28f5cp+10; 0x1.5ed1eb851eb85p+10; 0x1.601e147ae147bp+10; 0x1.62c28f5c28f5cp+10; 0x1.615851eb851ecp+10; 0x1.5dbd70a3d70a4p+10; 0x1.5d851eb851eb8p+10; 0x1.598cccccccccdp+10; 0x1.53a5c28f5c28fp+10; 0x1.562d70a3d70a4p+10; 0x1.5ae47ae147ae1p+10; 0x1.5690a3d70a3d7p+10; 0x1.56647ae147ae1p+10; 0x1.5bb1eb851eb85p+10; 0x1.5a48f5c28f5c3p+10; 0x1.583ae147ae148p+10; 0x1.58a1eb851eb85p+10; 0x1.55bc28f5c28f6p+10; 0x1.56fe147ae147bp+10; 0x1.5bac28f5c28f6p+10; 0x1.5dfeb851eb852p+10; 0x1.5ed70a3d70a3dp+10; 0x1.5d7a3d70a3d71p+10; 0x1.5f747ae147ae1p+10; 0x1.5e93d70a3d70ap+10; 0x1.5be47ae147ae1p+10; 0x1.5646666666666p+10; 0x1.56651eb851eb8p+10; 0x1.54ee147ae147bp+10; 0x1.52a51eb851eb8p+10; 0x1.537f5c28f5c29p+10; 0x1.5258f5c28f5c3p+10; 0x1.4e96666666666p+10; 0x1.4caa3d70a3d71p+10; 0x1.4b33333333333p+10; 0x1.46370a3d70a3dp+10; 0x1.43ce147ae147bp+10; 0x1.48ff5c28f5c29p+10; 0x1.492851eb851ecp+10; 0x1.49b70a3d70a3dp+10; 0x1.4a2b851eb851fp+10; 0x1.49747ae147ae1p+10; 0x1.4d1ae147ae148p+10; 0x1.48547ae147ae1p+10; 0x1.47951eb851eb8p+10; 0x1.3f828f5c28f5cp+10; 0x1.3f8b851eb851fp+10; 0x1.4160000000000p+10; 0x1.48c851eb851ecp+10; 0x1.48bf5c28f5c29p+10; 0x1.4b6a3d70a3d71p+10; 0x1.473b851eb851fp+10; 0x1.4b0b851eb851fp+10; 0x1.48b851eb851ecp+10; 0x1.4c46666666666p+10; 0x1.4fb5c28f5c28fp+10; 0x1.5031eb851eb85p+10; 0x1.537eb851eb852p+10; 0x1.52ec28f5c28f6p+10; 0x1.4b60a3d70a3d7p+10; 0x1.4dc147ae147aep+10; 0x1.486e147ae147bp+10; 0x1.49ff5c28f5c29p+10; 0x1.4cf6666666666p+10; 0x1.4c428f5c28f5cp+10; 0x1.548a3d70a3d71p+10; 0x1.5560a3d70a3d7p+10; 0x1.578147ae147aep+10; 0x1.55e51eb851eb8p+10; 0x1.52ab851eb851fp+10; 0x1.521d70a3d70a4p+10; 0x1.4f5e147ae147bp+10; 0x1.4f5cccccccccdp+10; 0x1.4db0a3d70a3d7p+10; 0x1.5331eb851eb85p+10; 0x1.5268f5c28f5c3p+10; 0x1.54eae147ae148p+10; 0x1.5731eb851eb85p+10; 0x1.5820a3d70a3d7p+10; 0x1.54aa3d70a3d71p+10; 0x1.51a147ae147aep+10; 0x1.4e93d70a3d70ap+10; 0x1.4e78f5c28f5c3p+10; 0x1.540147ae147aep+10; 0x1.5a7e147ae147bp+10; 0x1.5a53333333333p+10; 0x1.58d47ae147ae1p+10; 0x1.57d47ae147ae1p+10; 0x1.5540000000000p+10; 0x1.5bbf5c28f5c29p+10; 0x1.5c8eb851eb852p+10; 0x1.5e56666666666p+10; 0x1.5e8e147ae147bp+10; 0x1.5eb3333333333p+10; 0x1.5f77ae147ae14p+10; 0x1.5f070a3d70a3dp+10; 0x1.5efb851eb851fp+10; 0x1.5f61eb851eb85p+10; 0x1.61e0a3d70a3d7p+10; 0x1.628a3d70a3d71p+10; 0x1.628851eb851ecp+10; 0x1.614ae147ae148p+10; 0x1.615f5c28f5c29p+10; 0x1.5e851eb851eb8p+10; 0x1.60c851eb851ecp+10; 0x1.609c28f5c28f6p+10; 0x1.6053333333333p+10; 0x1.609f5c28f5c29p+10].
(* test/data/cs-tsi.csv 'TSI' *)
Definition d022 : list float := [nan; nan; nan; nan; nan; nan; nan; nan; nan; nan; nan; nan; nan; nan; nan; nan; nan; nan; nan; nan; nan; nan; nan; nan; nan; nan; nan; nan; nan; nan; nan; nan; nan; nan; nan; nan; nan; nan; nan; nan; nan; nan; nan; nan; nan; nan; nan; nan; nan; nan; nan; nan; nan; nan; nan; nan; nan; nan; nan; 0x1.77bcd11de5245p+3; 0x1.35d747b2d160fp+3; 0x1.f672661480167p+2; 0x1.5314f4167c691p+2; 0x1.b16953d4710e9p+2; 0x1.3a5544b103197p+3; 0x1.8f8c7a41b8d2bp+3; 0x1.c9825053451a9p+3; 0x1.f983d68ef974dp+3; 0x1.182ade13b0b1cp+4; 0x1.36bac40d0aaa8p+4; 0x1.5c7ea675a1cd0p+4; 0x1.7b5d4f91f9ed3p+4; 0x1.96dce8339be8fp+4; 0x1.9b011c05d2cf6p+4; 0x1.abef7f0d71f09p+4; 0x1.bbc215ac4e4cfp+4; 0x1.cea4b6135fc9cp+4; 0x1.ebece2dca0d8cp+4; 0x1.05d8ee8b06b08p+5; 0x1.0f527e6e94091p+5; 0x1.17ee7dc346b39p+5; 0x1.201543816cceap+5; 0x1.28329cdc40c98p+5; 0x1.2b20a7e306c0ap+5; 0x1.2d1c59e4d2f1ep+5; 0x1.3d2e2567b939dp+5; 0x1.4678461aca0e6p+5; 0x1.5468545651420p+5; 0x1.5930b2885efbep+5; 0x1.574134bf05812p+5; 0x1.51321d3bf0b41p+5; 0x1.512b1e72c4b42p+5; 0x1.5d396b00fc6aap+5; 0x1.610adf9bd58acp+5; 0x1.6db36da087ee8p+5; 0x1.797213ccd3924p+5; 0x1.6007f0a2a4612p+5; 0x1.481ce2dd1ffa5p+5; 0x1.388eacc12bbe5p+5; 0x1.34697aa63e8c9p+5; 0x1.31819fd580a21p+5; 0x1.35342151ce17cp+5; 0x1.3b5ea8d146b96p+5; 0x1.07f124be143c1p+5; 0x1.da129a00752f8p+4; 0x1.e30d05c6db9f9p+4; 0x1.db74e2d017a5ap+4; 0x1.dc31ac3835593p+4; 0x1.e46a43e59ca24p+4; 0x1.faef6bfe2ca08p+4; 0x1.0b6d4da6977d1p+5; 0x1.0f6672ef58347p+5; 0x1.13774a35f2efep+5; 0x1.1d70996ebcd15p+5; 0x1.284e8de433e5ap+5; 0x1.2894bb6cf56e2p+5; 0x1.305316823e017p+5; 0x1.3a330891cba44p+5; 0x1.44728f6c4b002p+5; 0x1.1553e1967fd62p+5; 0x1.c62f917bd0cc6p+4; 0x1.75165a08e6d7bp+4; 0x1.5351e4204633ap+4; 0x1.48d9dc7cc68ecp+4; 0x1.01297ae288f19p+4; 0x1.a003b298ed420p+3; 0x1.b45a2936a09f2p+3; 0x1.8fcc09587c149p+3; 0x1.3d2d003f7a703p+3; 0x1.2d6235a11e33ap+3; 0x1.18f61b3de9b2ap+3; 0x1.32166acc6edc7p+2; 0x1.73b3b8414c110p+1; 0x1.e7cde8fe1c2a5p-2; (-0x1.919567fb79cefp+1); (-0x1.1574a8126b2d2p+3); (-0x1.55bc9f0d2d017p+3); (-0x1.704694fbc0a45p+3); (-0x1.3ac0669ffe29fp+3); (-0x1.203fe42ec87d5p+3); (-0x1.fbbe3b23e1696p+2); (-0x1.6e5cb5fa08ab6p+2); (-0x1.c315f88e11684p+1); (-0x1.10e98e32d8fc5p+1); (-0x1.145486fc1951cp-8); 0x1.53f380c90fbf4p+1; 0x1.226d518234c05p+2; 0x1.b14e17721f72bp+2; 0x1.15012c1187bb1p+3; 0x1.46662e88442adp+3; 0x1.7a1576894e66dp+3; 0x1.9cbb84ace7431p+3; 0x1.a123472039ac3p+3; 0x1.92ed895419603p+3; 0x1.5433eb04e6dcap+3; 0x1.20c83069c5ba9p+3; 0x1.eb863053137f3p+2; 0x1.d0b27c4c00df8p+2; 0x1.210bf72d16bb3p+2; 0x1.b27c60ae6b8dcp+1; 0x1.4985f09a09eb9p+2; 0x1.e2bc649f3358fp+2; 0x1.22927738fd94cp+3; 0x1.7efa0ee8d10f5p+3; 0x1.eb8666546a31fp+3; 0x1.2a617e33ad43bp+4; 0x1.5a7597a74da2ap+4; 0x1.79f446186673fp+4; 0x1.853539764f59ep+4; 0x1.7102eb5be1b0cp+4; 0x1.3afaf0bfc6292p+4; 0x1.1aaaeadcb2670p+4; 0x1.0dbab757d1956p+4; 0x1.1a4cf0289ac98p+4; 0x1.f0178d91434bfp+3; 0x1.d699e81530467p+3; 0x1.86b5f4e8fc819p+3; 0x1.1cdfd177f63e8p+3; 0x1.8f640479ded49p+2; 0x1.715510fa34754p+2; 0x1.73c0fd912b5a2p+2; 0x1.0e5b73d3aeb5bp+2; 0x1.29ccb60517e97p-1; (-0x1.349c5bb71c1cap+1); (-0x1.09fe2b5a6c753p+2); (-0x1.3030cc6af48d0p+2); (-0x1.19485a2db7b80p+2); (-0x1.f20934f7a2713p+0); (-0x1.1628a4a31ac94p+2); (-0x1.96dda1b426550p+2); (-0x1.307129fb1340bp+3); (-0x1.b28a020f7655fp+3); (-0x1.0d38ad33df937p+4); (-0x1.3f242faf2ed20p+4); (-0x1.4eafeef27ce4dp+4); (-0x1.7800fb89b84afp+4); (-0x1.95f2625b2dbcfp+4); (-0x1.849755c1c925bp+4); (-0x1.98e49ad68c677p+4); (-0x1.a2ec246c21e58p+4); (-0x1.a146d4a18b084p+4); (-0x1.8f2d30ed680acp+4); (-0x1.57be0056b7d3bp+4); (-0x1.392af6735d718p+4); (-0x1.26b5122b0a4bbp+4); (-0x1.2f859dba9e489p+4); (-0x1.1c3ca3f3deb64p+4); (-0x1.d1fd3ec2f4b6fp+3); (-0x1.55da5f13fee8fp+3); (-0x1.82597c2dbb08bp+2); (-0x1.0274417c69608p-2); 0x1.ff9072b0eeed3p+1; 0x1.df1c4809f8dffp+2; 0x1.75b6444405462p+3; 0x1.ba8aefb16ec69p+3; 0x1.903153e221c01p+3; 0x1.58dd3ebbb549ep+3; 0x1.39f17942ff319p+3; 0x1.ffebc48e503f8p+2; 0x1.d1df858c0004ep+2; 0x1.5d81506d5e5aep+2; 0x1.8c5f42662524bp+2; 0x1.aaacf5f8c1d28p+2; 0x1.1aa6290e035d6p+3; 0x1.5537c2f88503dp+3; 0x1.6702e911f0d11p+3; 0x1.5ffab3a474ce6p+3; 0x1.e505a8b591280p+2; 0x1.1a7f9d4b3443cp+2; 0x1.eefe50e485367p-1; (-0x1.2e8d1fce94879p+1); (-0x1.0c2e2401d18c3p+3); (-0x1.88dbffc1a4773p+3); (-0x1.4648bd638ce81p+4); (-0x1.a49dbb0a1d337p+4); (-0x1.1c9bbd7f53a78p+5); (-0x1.1fa454b6940fep+5); (-0x1.34b7ed6590d6ep+5); (-0x1.1ccef12c1d576p+5); (-0x1.08918fc4a0dccp+5); (-0x1.d4bb0a77be82ap+4); (-0x1.b066828e8946fp+4); (-0x1.93dc567057b48p+4); (-0x1.a07a75b0f7a84p+4); (-0x1.b4906d27e3ae4p+4); (-0x1.c3b2471c80309p+4); (-0x1.a6d4aeefbb3b1p+4); (-0x1.80c6d62d9e9ecp+4); (-0x1.6e567027e58a2p+4); (-0x1.4e62cff964f6dp+4); (-0x1.14f5427aa3e02p+4); (-0x1.c9eedf11ca8d1p+3); (-0x1.71ad381497b25p+3); (-0x1.3f547391b1be9p+3); (-0x1.445a2e49bf66bp+3); (-0x1.55933724f2624p+3); (-0x1.252ab46f12447p+3); (-0x1.122242ade793dp+3); (-0x1.33feca5ddaf24p+3); (-0x1.3fea6d4982cb9p+3); (-0x1.3574991a2e2ebp+3); (-0x1.0ee25a780f93fp+3); (-0x1.91ee587cbea38p+2); (-0x1.06bec43b8fc05p+2); (-0x1.7d208fae19949p+1); (-0x1.14c90e24dd8f5p+1); (-0x1.c0f62eee45918p+1); (-0x1.aa0f3d5ef1823p+2); (-0x1.17295515a6c86p+3); (-0x1.1604b846dfb6bp+3); (-0x1.f7d7022140b82p+2); (-0x1.10f8ae7ba8eddp+3); (-0x1.0eb7b6db3b281p+3); (-0x1.3e7aab2faf754p+3); (-0x1.9976a6ecd81edp+3); (-0x1.acfa6490b7ee8p+3); (-0x1.92c8fafd23e71p+3); (-0x1.53fcad5c237f5p+3); (-0x1.320148cf3d19bp+3); (-0x1.953aa34596977p+2); (-0x1.e19042dbfb469p+1); (-0x1.08c08ecae56a5p+0); 0x1.edfd3d77c29fcp-1; 0x1.e2c6693e659efp+1; 0x1.26f4e7b6322bap+2; 0x1.a7f713856a78fp+2; 0x1.d14433a44fdeap+2; 0x1.02be5c37f2066p+3; 0x1.3f41050120db5p+3; 0x1.8adcfdaa36e11p+3; 0x1.919e9c9cc8111p+3; 0x1.ac892304eea58p+3; 0x1.038b3d15d252bp+4; 0x1.276fd71907e21p+4; 0x1.2073162b5982dp+4; 0x1.e9b4ed228b4dep+3; 0x1.c4d02aa1febdcp+3; 0x1.cc52455d6be6cp+3; 0x1.c1dc35f14266cp+3; 0x1.c5d66ae882eb1p+3; 0x1.e0288913029efp+3; 0x1.93d55a9ee9011p+3; 0x1.68e9a46335d53p+3; 0x1.6d8932a71711bp+3; 0x1.5921e860307f4p+3; 0x1.528d45d90af03p+3; 0x1.2368ceb0dea1ep+3; 0x1.a91cf305eaa76p+2; 0x1.28492eab4dc6fp+2; 0x1.9f658a381bb31p+0; (-0x1.1c4a2583285b4p+0); (-0x1.376fefeb6197bp+2); (-0x1.02c2a238e2653p+3); (-0x1.0edb295a6e14fp+3); (-0x1.12f478d96d8a9p+3); (-0x1.52919fedd29e2p+2); (-0x1.6bc119228d5f0p+1); (-0x1.cc6484e242f9dp-1); 0x1.79c0f61a721dep+0; 0x1.c06362087e6bdp+1; 0x1.55dca7014ffb0p+2; 0x1.4062f8e58b5dep+2; 0x1.833082ef5215ap+2; 0x1.63e902524f342p+2; 0x1.19ee83e4e6190p+2; 0x1.3e94ae86b14cap+1; 0x1.338edadff1280p+0; 0x1.abde734e92707p-2; (-0x1.414427d92a2bbp+0); 0x1.d22e676fc6798p-9; 0x1.2e819c624bcf9p+0; 0x1.6facba8a964bap+1; 0x1.433fd2711fa9ap+2; 0x1.b57e678540087p+2; 0x1.c0adc6bb0901cp+2; 0x1.03b02ad7ca1fdp+3; 0x1.11c20cfba5a32p+3; 0x1.4a6edff0b3346p+3; 0x1.791b77803a032p+3; 0x1.a864624f15ecfp+3; 0x1.c5b4385cea711p+3; 0x1.e53d1c4e98a90p+3; 0x1.0dbb4c6e0d66dp+4; 0x1.24f59185b51c7p+4; 0x1.3c6626eeea1e9p+4; 0x1.440634dc6891bp+4; 0x1.507c4a1f6f175p+4; 0x1.6e0c1345d11c4p+4; 0x1.8f26fa2773c36p+4; 0x1.abedc6a098237p+4; 0x1.c505a8c57c38ap+4; 0x1.d70d9f246a64fp+4; 0x1.f617b00266b7ap+4; 0x1.fbd1bf236da2bp+4; 0x1.fadf50c9ab8c1p+4; 0x1.f0c1c31fc73d1p+4; 0x1.e67b53716de0cp+4; 0x1.f03b66ae859b0p+4; 0x1.faaccd5e2f44cp+4; 0x1.110e793eb8d60p+5; 0x1.20104a32819c2p+5; 0x1.2e701b7fe1825p+5; 0x1.3c831ad4a3a31p+5; 0x1.49b5b6fc0f8c6p+5; 0x1.43af93550a5d2p+5; 0x1.45daf80b21c3bp+5; 0x1.454183411b30ep+5; 0x1.37146923c815bp+5; 0x1.37d5704752df5p+5; 0x1.3b0841718a3cfp+5; 0x1.3e671a6fa07f7p+5; 0x1.386c486a34cebp+5; 0x1.38793c0275e24p+5; 0x1.3a784ba1a53cfp+5; 0x1.3db8b9c62fb0cp+5; 0x1.4474138db79f5p+5; 0x1.3c6221774075bp+5; 0x1.3d77fc3571dc2p+5; 0x1.34ef47ea0c694p+5; 0x1.22e54ddfa2609p+5; 0x1.d4991948e2833p+4; 0x1.921f24d217459p+4; 0x1.7c5378acbd777p+4; 0x1.766354a21a7bfp+4; 0x1.7248062f349a1p+4; 0x1.a1a362e880d31p+4; 0x1.bfa1de89e3991p+4; 0x1.e5c0637067c71p+4; 0x1.02ffa88b65539p+5; 0x1.146de4a95d3d1p+5; 0x1.1b0562a8d8002p+5; 0x1.1bbf617922c8ep+5; 0x1.0aca1b267a7ccp+5; 0x1.00fc3d319c81cp+5; 0x1.0a001955a0f83p+5; 0x1.0a47a9475e23dp+5; 0x1.fdb92914bb11dp+4; 0x1.e43c81438ab9fp+4; 0x1.d90956107363dp+4; 0x1.e2e2101259ba5p+4; 0x1.d81ba04defa05p+4; 0x1.a125c6e4ab65dp+4; 0x1.7354f844df52fp+4; 0x1.1f5b423e86261p+4; 0x1.3ba292dbc49f4p+3; 0x1.4b6a3b6a8f400p+2; 0x1.0cba1738cfd6fp+2; 0x1.173b34203a7f8p+0; (-0x1.4dc120f0c927fp+0); (-0x1.988375262df84p-2); (-0x1.a5144161916dep-2); (-0x1.68b235368c91cp+0); (-0x1.fc895be765072p+0); (-0x1.e6189833ff3b3p+1); (-0x1.264968999c73cp+2); (-0x1.74411cd11532ap+1); (-0x1.e741a3e29375ap-2); 0x1.d4b7ef39161dcp+0; 0x1.816990a08b4b3p+1; 0x1.3744c70fc2977p+2; 0x1.7a6cad4fe5e3ap+2; 0x1.58ac94bacdf6ep+2; 0x1.121975ee11edap+1; (-0x1.646b026dc8a45p-2); (-0x1.84a8d0928cdc9p+1); (-0x1.90746f9829b22p+2); (-0x1.0cd768ecadb1bp+3); (-0x1.552ca657c4c25p+3); (-0x1.c4d9da99977fep+3); (-0x1.1c1fa2befced9p+4); (-0x1.53fa05be2764fp+4); (-0x1.9f69aaf404d62p+4); (-0x1.e8431bc18c02dp+4); (-0x1.ebc03c3d36dc0p+4); (-0x1.ecd3b98145aecp+4); (-0x1.e809062770e41p+4); (-0x1.df896c7d2f3f6p+4); (-0x1.dc9a4eb8abcadp+4); (-0x1.b4446c6e4b08dp+4); (-0x1.b0023add0a578p+4); (-0x1.b101365266432p+4); (-0x1.df5862c969642p+4); (-0x1.01226e8d22ff1p+5); (-0x1.05844158557abp+5); (-0x1.c912dcdb79123p+4); (-0x1.9721981cee829p+4); (-0x1.584431dc28dcep+4); (-0x1.3f2c44f49c61bp+4); (-0x1.0c05449a9905ep+4); (-0x1.e44fb5243b530p+3); (-0x1.84e3a43642c1ap+3); (-0x1.0808517c030cap+3); (-0x1.3ffac9e47edefp+2); (-0x1.025eca1d9780fp+0); 0x1.e91c5e7a46b39p+0; 0x1.0a49e89e24f3dp+0; 0x1.5305bf5d0fb50p+0; (-0x1.34324d81a9681p-1); (-0x1.75ecef45745dbp+0); (-0x1.e8c6e7b235afbp-1); (-0x1.a85c4a4345242p-1); 0x1.3b00c1bad8ab1p+1; 0x1.534d2b9cbbe2fp+2; 0x1.092280592f2ffp+3; 0x1.3f76dc886464ap+3; 0x1.3f8be3146a78dp+3; 0x1.38234f814b02ep+3; 0x1.0cf50bf1fbb06p+3; 0x1.d3b071a08666cp+2; 0x1.6c2bde0ea9ec1p+2; 0x1.9dc10e37b5aacp+2; 0x1.afdddb0abcc25p+2; 0x1.fbc80f481fe90p+2; 0x1.383a7ded34af0p+3; 0x1.72cc2b3e92cfep+3; 0x1.6decfec4a9834p+3; 0x1.3c0bf8c94c5c2p+3; 0x1.cd5210e0f03cbp+2; 0x1.413d1b43d33e8p+2; 0x1.61c7d8628fe9bp+2; 0x1.100b151f3c7f6p+3; 0x1.571a1fb3b3fdfp+3; 0x1.78e53cf447d31p+3; 0x1.84bfb36d56fadp+3; 0x1.66e5d84c14a82p+3; 0x1.9cf77db496073p+3; 0x1.d0a63f13519bap+3; 0x1.07046960f540ep+4; 0x1.20e2a3da0f559p+4; 0x1.36d7d0cbf2cdbp+4; 0x1.4d659e5437917p+4; 0x1.5c509de751cb6p+4; 0x1.687884c37fb95p+4; 0x1.753dcd8b08934p+4; 0x1.8f889095d71acp+4; 0x1.a9ccc83af5520p+4; 0x1.bffafd33f4838p+4; 0x1.c495c16882afdp+4; 0x1.c90b50866d517p+4; 0x1.a9a4e3ac6c97fp+4; 0x1.9fe09e88617b0p+4; 0x1.959fccc84c07ep+4; 0x1.895d1549d9b6fp+4; 0x1.816c16c9b848cp+4].
(* test/data/cs-ppo.csv 'Close' *)
Definition d023 : list float := [0x1.5294af4f0d845p+4; 0x1.47dcc63f14120p+4; 0x1.4bcd9e83e425bp+4; 0x1.4c467381d7dbfp+4; 0x1.487e28240b780p+4; 0x1.39d566cf41f21p+4; 0x1.404c2f837b4a2p+4; 0x1.3b40b780346dcp+4; 0x1.3f0902de00d1bp+4; 0x1.39fd8adab9f56p+4; 0x1.31cb295e9e1b1p+4; 0x1.351b089a02752p+4; 0x1.39d566cf41f21p+4; 0x1.38ae7d566cf42p+4; 0x1.2e31f8a0902dep+4; 0x1.3558793dd97f6p+4; 0x1.33703afb7e910p+4; 0x1.38346dc5d6388p+4; 0x1.38d70a3d70a3dp+4; 0x1.3eb851eb851ecp+4; 0x1.449930be0ded3p+4; 0x1.49346dc5d6388p+4; 0x1.4840b780346dcp+4; 0x1.4b1cac083126fp+4; 0x1.4acb295e9e1b1p+4; 0x1.4b96bb98c7e28p+4; 0x1.43ee631f8a090p+4; 0x1.48e353f7ced91p+4; 0x1.47c6a7ef9db23p+4; 0x1.462fec56d5cfbp+4; 0x1.449930be0ded3p+4; 0x1.49346dc5d6388p+4; 0x1.4840b780346dcp+4; 0x1.4b1cac083126fp+4; 0x1.4acb295e9e1b1p+4; 0x1.4b96bb98c7e28p+4; 0x1.43ee631f8a090p+4; 0x1.48e353f7ced91p+4; 0x1.47c6a7ef9db23p+4; 0x1.462fec56d5cfbp+4].
(* test/data/cs-ppo.csv 'PPO' *)
Definition d024 : list float := [0x0.0p+0; (-0x1.0333ac9625babp-2); (-0x1.6c8136086b2cap-2); (-0x1.afa32798e8723p-2); (-0x1.1de07b71b9a16p-1); (-0x1.02e2d0afb05c5p+0); (-0x1.33c18ca37825ep+0); (-0x1.764c02552279ep+0); (-0x1.8f1ae4aa308d1p+0); (-0x1.bdf3124eeaa76p+0); (-0x1.08fb01da5be7cp+1); (-0x1.1cd723eae32fbp+1); (-0x1.1a4f9e1c79f80p+1); (-0x1.18e7915620957p+1); (-0x1.36810070933b0p+1); (-0x1.336520781201dp+1); (-0x1.33c4d1b220097p+1); (-0x1.212b3725dc07bp+1); (-0x1.0d40f12390a04p+1); (-0x1.cef2acd2a8d14p+0); (-0x1.686aabdf30408p+0); (-0x1.ecf5ed6990c28p-1); (-0x1.418fde9a54aa8p-1); (-0x1.2734237f2857ap-2); (-0x1.c672eb0ec135ep-6); 0x1.906b647622fc4p-3; 0x1.6f1142e5b133ep-3; 0x1.253a08d5e09e7p-2; 0x1.5ba40e9604899p-2; 0x1.5a4fd6c19313ep-2; 0x1.2d6805ee6e979p-2; 0x1.7a6ad573d5decp-2; 0x1.9a6a5f0685313p-2; 0x1.f6396a2ef2dcbp-2; 0x1.18199dc8c3ccdp-1; 0x1.356c22d5216d0p-1; 0x1.d2ce1a41da1bfp-2; 0x1.d2005bc3c0ccap-2; 0x1.b04e4f2d09af7p-2; 0x1.695aac5a21c5bp-2].
(* test/data/cs-ppo.csv 'PPO_Signal_Line' *)
Definition d025 : list float := [0x0.0p+0; (-0x1.9eb914236f912p-5); (-0x1.c97e33462f629p-4); (-0x1.63a6f125599c5p-3); (-0x1.009c91d607b24p-2); (-0x1.9c65e86c597d4p-2); (-0x1.200fc86d3e324p-1); (-0x1.7c2b07acd1ed9p-1); (-0x1.cfc6c8010438bp-1); (-0x1.12b353a9f6332p+0); (-0x1.45c0aa143b206p+0); (-0x1.7689c9a07b12dp+0); (-0x1.9c8e13bef9a57p+0); (-0x1.ba67e3872c0c5p+0); (-0x1.de204fce15ef7p+0); (-0x1.f9758005850b5p+0); (-0x1.07bcc38ca9938p+1); (-0x1.0cd2daabbb37dp+1); (-0x1.0ce8df293d328p+1); (-0x1.056c2a37587e4p+1); (-0x1.ea5bff8530d6ep+0); (-0x1.b9956426815a4p+0); (-0x1.816c4cc92033cp+0); (-0x1.43193f3450f31p+0); (-0x1.03e62816e436ep+0); (-0x1.8bd147edc0bd7p-1); (-0x1.2a4cf6330fb15p-1); (-0x1.a2a2bb59c76c7p-2); (-0x1.09615fc313787p-2); (-0x1.1e1576865a7ccp-3); (-0x1.b137d82c5114cp-5); 0x1.02e4a8959bc24p-5; 0x1.afe3c2a848c37p-4; 0x1.75a5452394927p-3; 0x1.057f8df71b775p-2; 0x1.4cf7b2b591a04p-2; 0x1.67bc2dd0f0336p-2; 0x1.7cfd03cdf528dp-2; 0x1.8740794707b42p-2; 0x1.8145b6b248001p-2].
(* test/data/cs-ppo.csv 'PPO_Histogram' *)
Definition d026 : list float := [0x0.0p+0; (-0x1.9eb914220fb92p-3); (-0x1.f443526dbea80p-3); (-0x1.fb9f5e0c77481p-3); (-0x1.3b24650d6b908p-2); (-0x1.3792ad2aebc80p-1); (-0x1.477350ddfd9c8p-1); (-0x1.706cfcfd73062p-1); (-0x1.4e6f0151a5137p-1); (-0x1.567f7d4755337p-1); (-0x1.986ab347d8963p-1); (-0x1.8648fc6e06352p-1); (-0x1.302250f5ac632p-1); (-0x1.dd9cfc97c4161p-2); (-0x1.1dc36226210d2p-1); (-0x1.b55303a39ca98p-2); (-0x1.6040712f234b6p-2); (-0x1.4585c7a20cfd1p-3); (-0x1.6047e8d92a942p-9); 0x1.df2d3cd962220p-3; 0x1.03e2a74c012cdp-1; 0x1.8634dae605a71p-1; 0x1.c148baf70fd60p-1; 0x1.f2986ca755ec6p-1; 0x1.f998b8d880079p-1; 0x1.efec210c25638p-1; 0x1.861146ec7bfe5p-1; 0x1.63ee6217d4057p-1; 0x1.3282b72d67e80p-1; 0x1.e95a920308844p-2; 0x1.638f00f3ccbf3p-2; 0x1.5a0e40614e618p-2; 0x1.2e716e5c73005p-2; 0x1.3b66c79d28937p-2; 0x1.2ab3ad98b4545p-2; 0x1.1de092f4b139cp-2; 0x1.ac47b1c3a7a23p-4; 0x1.540d5fd51ecb3p-4; 0x1.486eaf2d502a7p-5; (-0x1.7eb0a58263a5ap-6)].
(* test/data/cs-pvo.csv 'Volume' *)
Definition d027 : list float := [0x1.6416000000000p+15; 0x1.02ed000000000p+16; 0x1.9462000000000p+15; 0x1.0edd000000000p+16; 0x1.453e000000000p+15; 0x1.1f1b000000000p+16; 0x1.b106000000000p+15; 0x1.dd34000000000p+15; 0x1.045a000000000p+15; 0x1.322e000000000p+15; 0x1.8f70000000000p+15; 0x1.6b52000000000p+15; 0x1.5c24000000000p+15; 0x1.7d5e000000000p+15; 0x1.0506000000000p+15; 0x1.783a000000000p+15; 0x1.517e000000000p+15; 0x1.659a000000000p+15; 0x1.a884000000000p+15; 0x1.bae8000000000p+15; 0x1.e426000000000p+15; 0x1.41f8000000000p+15; 0x1.d312000000000p+15; 0x1.5f74000000000p+15; 0x1.b4f2000000000p+15; 0x1.3d9d800000000p+17; 0x1.20ba000000000p+16; 0x1.22f5000000000p+16; 0x1.9786000000000p+15; 0x1.98dc000000000p+15; 0x1.6416000000000p+15; 0x1.02ed000000000p+16; 0x1.9462000000000p+15; 0x1.0edd000000000p+16; 0x1.453e000000000p+15; 0x1.1f1b000000000p+16; 0x1.b106000000000p+15; 0x1.dd34000000000p+15; 0x1.045a000000000p+15; 0x1.322e000000000p+15].
(* test/data/cs-pvo.csv 'PVO' *)
Definition d028 : list float := [0x0.0p+0; 0x1.c0c3aebecd635p+1; 0x1.dcfabe4ed2178p+1; 0x1.a6c8a5d33035ap+2; 0x1.1b74e19711dd8p+2; 0x1.e42040889779fp+2; 0x1.c96f39cab830cp+2; 0x1.e3b32d912a2bcp+2; 0x1.d650f0b581a40p+1; 0x1.62d3a36f751cap+0; 0x1.749a34047a9f4p+0; 0x1.823577ed32af1p-1; (-0x1.fcdb5c5932a66p-4); (-0x1.f2e8d11630e49p-4); (-0x1.58d9be03d3969p+1); (-0x1.1b2b59146e4c1p+1); (-0x1.5422432fef4acp+1); (-0x1.44c2436f4916ap+1); (-0x1.e8b729037bd7ep-1); 0x1.51011ce5b2da8p-1; 0x1.5bb7043007d20p+1; 0x1.f34b221bc1792p-1; 0x1.47e07902867e4p+1; 0x1.6c0196e5d7823p+0; 0x1.1f6e19ea730c2p+1; 0x1.1171576dfb054p+4; 0x1.04a7d73f41896p+4; 0x1.f0d0f5fc460c3p+3; 0x1.8544f07faf62bp+3; 0x1.2c17db8e86960p+3; 0x1.8c84c6be95d26p+2; 0x1.91868dc264adcp+2; 0x1.18912efe928f0p+2; 0x1.48fdad7ec2978p+2; 0x1.03e0294040370p+1; 0x1.e60e5707f1079p+1; 0x1.5ea86b794ac4ap+1; 0x1.50249fe14b22dp+1; (-0x1.490523669daa0p+0); (-0x1.d57fb79d5d150p+1)].
(* test/data/cs-pvo.csv 'PVO_Signal_Line' *)
Definition d029 : list float := [0x0.0p+0; 0x1.6702f2323de91p-1; 0x1.4e6579cec56cdp+0; 0x1.2edf3fdad0348p+1; 0x1.63ae26eb0c8f1p+1; 0x1.de31d28d228a4p+1; 0x1.1ac3c62dcc411p+2; 0x1.42f3a7a7a4495p+2; 0x1.31649e31a637bp+2; 0x1.060e46ba4e9afp+2; 0x1.c88ca9915e61bp+1; 0x1.808ccda5b2232p+1; 0x1.3075abf1be7c6p+1; 0x1.e0e62a15fe192p+0; 0x1.ed8ede891a97fp-1; 0x1.509f3bec80a17p-2; (-0x1.12eaa1f694af4p-2); (-0x1.71c610556eb9ap-1); (-0x1.898fe211abc4bp-1); (-0x1.eee5c48cd9ba1p-2); 0x1.40da061b4d0d8p-3; 0x1.480edce27aa64p-2; 0x1.898652c35b03fp-1; 0x1.cc6c182b3fd5dp-1; 0x1.2b24140abdb7fp+0; 0x1.169516bfac753p+2; 0x1.af63f1992c58cp+2; 0x1.0feb5ea323861p+3; 0x1.2763af01e941dp+3; 0x1.285484b7bdcf9p+3; 0x1.14b74ad95beb2p+3; 0x1.05867d41381d7p+3; 0x1.da8dd1ceae124p+2; 0x1.bd70fdbeb22cep+2; 0x1.7e57358561c30p+2; 0x1.627a66b7dec2ep+2; 0x1.3ea5f685691c3p+2; 0x1.20886eceeab44p+2; 0x1.acc02dc060358p+1; 0x1.f233995b41806p+0].
(* test/data/cs-pvo.csv 'PVO_Histogram' *)
Definition d030 : list float := [0x0.0p+0; 0x1.6702f231cff59p+1; 0x1.35c801699522ap+1; 0x1.0f5905e5c81b6p+2; 0x1.a67738862e57dp+0; 0x1.ea0eae86322b1p+1; 0x1.5d56e739d7df7p+1; 0x1.417f0bd30bc4fp+1; (-0x1.18f0975b9596cp+0); (-0x1.5ab2bbbce2a79p+1); (-0x1.0e3f8f8f21121p+1); (-0x1.1fff6faa65776p+1); (-0x1.405c86d41a1e1p+1); (-0x1.000a5b948c7abp+1); (-0x1.d43d75a5e342dp+1); (-0x1.453f40926c53cp+1); (-0x1.31c4eef2668f5p+1); (-0x1.d0a17eb36cdd0p+0); (-0x1.7c9d1bc3d0b0dp-3); 0x1.2439ff95a1e84p+0; 0x1.47a963cd40206p+1; 0x1.4f43b3a9a83f0p-1; 0x1.cafdc8a517489p+0; 0x1.0b9715a06f2e9p-1; 0x1.13b81fce73e35p+0; 0x1.9798237d32b0bp+3; 0x1.319db5b27656cp+3; 0x1.c1cb2eb2450c2p+2; 0x1.778505ee817d7p+1; 0x1.e1ab6b7fe01d0p-4; (-0x1.39d39de61e465p+1); (-0x1.e619b3002e345p+0); (-0x1.83f945a037067p+1); (-0x1.d1cd40ffbe558p+0); (-0x1.f8ce41ca834f1p+1); (-0x1.bdccecd3e47f5p+0); (-0x1.1ea381918773dp+1); (-0x1.e1d87b74c9085p+0); (-0x1.28a15fb9d7854p+2); (-0x1.674cc2257eea9p+2)].
(* test/data/cs-adx.csv 'High' *)
Definition d031 : list float := [0x1.e32c3c9eecbfbp+4; 0x1.e4710cb295e9ep+4; 0x1.e721ff2e48e8ap+4; 0x1.d59096bb98c7ep+4; 0x1.d5902de00d1b7p+4; 0x1.d49e1b089a027p+4; 0x1.cd559b3d07c85p+4; 0x1.cbc0ebedfa440p+4; 0x1.caa57a786c227p+4; 0x1.cda6b50b0f27cp+4; 0x1.ca2b6ae7d566dp+4; 0x1.bad14e3bcd35bp+4; 0x1.b36113404ea4bp+4; 0x1.add77318fc505p+4; 0x1.b68b439581062p+4; 0x1.af1b089a02752p+4; 0x1.a84d6a161e4f7p+4; 0x1.a84d6a161e4f7p+4; 0x1.b17bb2fec56d6p+4; 0x1.baf9db22d0e56p+4; 0x1.c729c779a6b51p+4; 0x1.c86d5cfaacd9fp+4; 0x1.caa57a786c227p+4; 0x1.d02f837b4a234p+4; 0x1.ddf3b645a1cacp+4; 0x1.dcd844d013a93p+4; 0x1.dc0be0ded288dp+4; 0x1.ea793dd97f62bp+4; 0x1.e9858793dd97fp+4; 0x1.ec374bc6a7efap+4; 0x1.f2b780346dc5dp+4; 0x1.ee46dc5d63886p+4; 0x1.e0a4a8c154c98p+4; 0x1.eaa1cac083127p+4; 0x1.e9858793dd97fp+4; 0x1.ff8ef34d6a162p+4; 0x1.00cf0d844d014p+5; 0x1.0040ebedfa440p+5; 0x1.fa020c49ba5e3p+4; 0x1.fda786c22680ap+4; 0x1.05a4dd2f1a9fcp+5; 0x1.061e4f765fd8bp+5; 0x1.049ce075f6fd2p+5; 0x1.010be0ded288dp+5; 0x1.08f8d4fdf3b64p+5; 0x1.0986f69446738p+5; 0x1.042339c0ebee0p+5; 0x1.0380d1b71758ep+5; 0x1.09c3fe5c91d15p+5; 0x1.06aca57a786c2p+5; 0x1.0cef694467382p+5; 0x1.0df79a6b50b0fp+5; 0x1.0cc6dc5d63886p+5; 0x1.10a8f5c28f5c3p+5; 0x1.149fbe76c8b44p+5; 0x1.11c56d5cfaacep+5; 0x1.162161e4f7660p+5; 0x1.15e425aee6320p+5; 0x1.181cac083126fp+5; 0x1.178ebedfa43fep+5; 0x1.135aee631f8a1p+5; 0x1.13322d0e56042p+5; 0x1.114b923a29c78p+5; 0x1.0ab780346dc5dp+5; 0x1.0b1d14e3bcd36p+5; 0x1.0c102de00d1b7p+5; 0x1.0fb5dcc63f141p+5; 0x1.135aee631f8a1p+5; 0x1.15bbcd35a8588p+5; 0x1.0f8d4fdf3b646p+5; 0x1.0d40ebedfa440p+5; 0x1.14119ce075f70p+5; 0x1.16ec226809d49p+5; 0x1.15f8a0902de01p+5; 0x1.196147ae147aep+5; 0x1.214e703afb7e9p+5; 0x1.239a6b50b0f28p+5; 0x1.20467381d7dbfp+5; 0x1.239a6b50b0f28p+5; 0x1.25e76c8b43958p+5; 0x1.24df6fd21ff2ep+5; 0x1.269db22d0e560p+5; 0x1.26b1f8a0902dep+5; 0x1.27178d4fdf3b6p+5; 0x1.230aa64c2f838p+5; 0x1.1ff559b3d07c8p+5; 0x1.1ed94af4f0d84p+5; 0x1.1f01d7dbf4880p+5; 0x1.1dd182a9930bep+5; 0x1.208ce703afb7fp+5; 0x1.1cd1eb851eb85p+5; 0x1.17d1eb851eb85p+5; 0x1.1ca95e9e1b08ap+5; 0x1.208ce703afb7fp+5; 0x1.21a92a3055326p+5; 0x1.23a4dd2f1a9fcp+5; 0x1.237cb923a29c7p+5; 0x1.245bc01a36e2fp+5; 0x1.1e7c504816f00p+5; 0x1.1a0aa64c2f838p+5; 0x1.19a57a786c227p+5; 0x1.14b9f559b3d08p+5; 0x1.15d63886594afp+5; 0x1.16de69ad42c3dp+5; 0x1.1a84ea4a8c155p+5; 0x1.1c06f69446738p+5; 0x1.2512d77318fc5p+5; 0x1.291eecbfb15b5p+5; 0x1.2a271de69ad43p+5; 0x1.2d9096bb98c7ep+5; 0x1.2efe5c91d14e4p+5; 0x1.330a71de69ad4p+5; 0x1.3963886594af5p+5; 0x1.386fd21ff2e49p+5; 0x1.38c154c985f07p+5; 0x1.3a2ee631f8a09p+5; 0x1.38e9ad42c3c9fp+5; 0x1.3edd63886594bp+5; 0x1.3c4395810624ep+5; 0x1.3de9e1b089a02p+5; 0x1.3ef1a9fbe76c9p+5; 0x1.3e8c49ba5e354p+5; 0x1.3ce1b089a0275p+5; 0x1.3dfe28240b780p+5; 0x1.3c3f487fcb924p+5; 0x1.39780346dc5d6p+5; 0x1.3f2eb1c432ca5p+5; 0x1.3eb4d6a161e4fp+5; 0x1.3d1e83e425aeep+5; 0x1.35947ae147ae1p+5; 0x1.365fd8adab9f5p+5; 0x1.38acd9e83e426p+5; 0x1.3c2acd9e83e42p+5; 0x1.404b5dcc63f14p+5; 0x1.41f5c28f5c28fp+5; 0x1.4377ced916873p+5; 0x1.4234a2339c0ecp+5; 0x1.412a9930be0dfp+5; 0x1.4601d7dbf4880p+5; 0x1.3f0624dd2f1aap+5; 0x1.421e83e425aeep+5; 0x1.393afb7e90ff9p+5; 0x1.3a068db8bac71p+5; 0x1.4073eab367a10p+5; 0x1.43a0902de00d2p+5; 0x1.47aca57a786c2p+5; 0x1.49941205bc01ap+5; 0x1.4a4b295e9e1b1p+5; 0x1.4b01d7dbf4880p+5; 0x1.4ce978d4fdf3bp+5; 0x1.511e1b089a027p+5; 0x1.528be0ded288dp+5; 0x1.528ded288ce70p+5; 0x1.5330be0ded289p+5; 0x1.543923a29c77ap+5; 0x1.56ec8b4395810p+5; 0x1.531c432ca57a8p+5; 0x1.4e5844d013a93p+5; 0x1.52df6fd21ff2ep+5; 0x1.528e219652bd4p+5; 0x1.526a4a8c154cap+5; 0x1.4ea9930be0dedp+5; 0x1.47ac083126e98p+5; 0x1.48dcfaacd9e84p+5; 0x1.4ebdd97f62b6bp+5; 0x1.4e43fe5c91d15p+5; 0x1.528ded288ce70p+5; 0x1.51ff972474539p+5; 0x1.548a71de69ad4p+5; 0x1.5396872b020c5p+5; 0x1.57e69ad42c3cap+5; 0x1.5686c226809d5p+5; 0x1.557e5c91d14e4p+5; 0x1.57b7b4a2339c1p+5; 0x1.5939f559b3d08p+5; 0x1.5c1652bd3c361p+5; 0x1.5977318fc5048p+5; 0x1.5b5f3b645a1cbp+5; 0x1.5b9c432ca57a8p+5; 0x1.56727bb2fec57p+5; 0x1.502bd3c361134p+5; 0x1.4f23d70a3d70ap+5; 0x1.4ed21ff2e48e9p+5; 0x1.4a36ae7d566cfp+5; 0x1.483a5e353f7cfp+5; 0x1.4c98fc504816fp+5; 0x1.50cea4a8c154dp+5; 0x1.52cb295e9e1b1p+5; 0x1.59b404ea4a8c1p+5; 0x1.5bb39c0ebedfap+5; 0x1.5ea0f9096bb99p+5; 0x1.5ec985f06f694p+5; 0x1.5ea0f9096bb99p+5; 0x1.62ae147ae147bp+5; 0x1.62487fcb923a3p+5; 0x1.6168a71de69adp+5; 0x1.5e26e978d4fdfp+5; 0x1.59f141205bc02p+5; 0x1.60b1c432ca57ap+5; 0x1.5eb50b0f27bb3p+5; 0x1.5f4395810624ep+5; 0x1.5c2a9930be0dfp+5; 0x1.5a7f62b6ae7d5p+5; 0x1.5fe69ad42c3cap+5; 0x1.6168a71de69adp+5; 0x1.617d21ff2e48fp+5; 0x1.6350b0f27bb30p+5; 0x1.5fd21ff2e48e9p+5; 0x1.5d844d013a92ap+5; 0x1.5e786c226809dp+5; 0x1.61ce3bcd35a86p+5; 0x1.623404ea4a8c1p+5; 0x1.62487fcb923a3p+5; 0x1.62d6d5cfaacdap+5; 0x1.6313a92a30553p+5; 0x1.5f2f4f0d844d0p+5; 0x1.61f4f0d844d01p+5; 0x1.6720f9096bb99p+5; 0x1.6866cf41f212dp+5; 0x1.6aa12d77318fcp+5; 0x1.6de48e8a71de7p+5; 0x1.70703afb7e910p+5; 0x1.700aa64c2f838p+5; 0x1.701eecbfb15b5p+5; 0x1.703da5119ce07p+5; 0x1.71e94467381d8p+5; 0x1.7207c84b5dcc6p+5; 0x1.726dc5d638866p+5; 0x1.703367a0f9097p+5; 0x1.726dc5d638866p+5; 0x1.7325119ce075fp+5; 0x1.6f2a64c2f837bp+5; 0x1.71f381d7dbf48p+5; 0x1.723089a027525p+5; 0x1.726dc5d638866p+5; 0x1.7325119ce075fp+5; 0x1.72db8bac710cbp+5; 0x1.70d63886594afp+5; 0x1.69e9e1b089a02p+5; 0x1.62e94467381d8p+5; 0x1.65381d7dbf488p+5; 0x1.64e69ad42c3cap+5; 0x1.618f27bb2fec5p+5; 0x1.5e4b923a29c78p+5; 0x1.586978d4fdf3bp+5; 0x1.5c62eb1c432cap+5; 0x1.5de5c91d14e3cp+5; 0x1.5b6e631f8a090p+5; 0x1.5656a161e4f76p+5; 0x1.579c779a6b50bp+5; 0x1.5a3cd35a85879p+5; 0x1.58a57a786c227p+5; 0x1.5c77318fc5048p+5; 0x1.5d2eb1c432ca5p+5; 0x1.60ebedfa43fe6p+5; 0x1.62ac3c9eecbfbp+5; 0x1.65896bb98c7e3p+5; 0x1.667df3b645a1dp+5; 0x1.665532617c1bep+5; 0x1.64068db8bac71p+5; 0x1.646c56d5cfaadp+5; 0x1.63b53f7ced917p+5; 0x1.64fae147ae148p+5; 0x1.69fe5c91d14e4p+5; 0x1.6cdbc01a36e2fp+5; 0x1.6c9eb851eb852p+5; 0x1.6c8a3d70a3d71p+5; 0x1.72597f62b6ae8p+5; 0x1.7325119ce075fp+5; 0x1.76683e425aee6p+5; 0x1.783d07c84b5ddp+5; 0x1.78cb5dcc63f14p+5; 0x1.7a3a29c779a6bp+5; 0x1.79089a0275254p+5; 0x1.7adcfaacd9e84p+5; 0x1.7d2bd3c361134p+5; 0x1.7d03126e978d5p+5; 0x1.7dfb15b573eabp+5; 0x1.7f4154c985f07p+5; 0x1.80c4d013a92a3p+5; 0x1.7fbbcd35a8588p+5; 0x1.8328c154c985fp+5; 0x1.81020c49ba5e3p+5; 0x1.819096bb98c7ep+5; 0x1.82c2c3c9eecc0p+5; 0x1.81f694467381dp+5; 0x1.83f487fcb923ap+5; 0x1.841d495182a99p+5; 0x1.858c7e28240b8p+5; 0x1.854f41f212d77p+5; 0x1.84e94467381d8p+5; 0x1.86be425aee632p+5; 0x1.87f03afb7e910p+5; 0x1.8921ff2e48e8ap+5; 0x1.8daca57a786c2p+5; 0x1.8fd32617c1bdap+5; 0x1.8f4467381d7dcp+5; 0x1.8b9a36e2eb1c4p+5; 0x1.8d5aee631f8a1p+5; 0x1.8fd32617c1bdap+5; 0x1.912de00d1b717p+5; 0x1.92da1cac08312p+5; 0x1.937d566cf41f2p+5; 0x1.91bc9eecbfb16p+5; 0x1.8b5d2f1a9fbe7p+5; 0x1.90f0d844d013bp+5; 0x1.909f559b3d07dp+5; 0x1.8faa64c2f837bp+5; 0x1.88e4f765fd8aep+5; 0x1.825c91d14e3bdp+5; 0x1.80edc5d638866p+5; 0x1.74d1eb851eb85p+5; 0x1.7cc91d14e3bcdp+5; 0x1.817c84b5dcc64p+5; 0x1.83a2d0e560419p+5; 0x1.84ac083126e98p+5; 0x1.7a8e219652bd4p+5; 0x1.7890624dd2f1bp+5; 0x1.7b086594af4f1p+5; 0x1.7377318fc5048p+5; 0x1.68b6113404ea5p+5; 0x1.6b94467381d7ep+5; 0x1.6911d14e3bcd3p+5; 0x1.64916872b020cp+5; 0x1.6b05532617c1cp+5; 0x1.6d9205bc01a37p+5; 0x1.6e5dcc63f1412p+5; 0x1.7070068db8bacp+5; 0x1.70ad77318fc50p+5; 0x1.74947ae147ae1p+5; 0x1.70c189374bc6ap+5; 0x1.6a25119ce075fp+5; 0x1.6256a161e4f76p+5; 0x1.65c395810624ep+5; 0x1.676fd21ff2e49p+5; 0x1.6ac84b5dcc63fp+5; 0x1.705bc01a36e2fp+5; 0x1.74947ae147ae1p+5; 0x1.77872b020c49cp+5; 0x1.77d8e219652bdp+5; 0x1.79d6a161e4f76p+5; 0x1.7c8d4fdf3b646p+5; 0x1.783e0ded288cep+5; 0x1.72e4f765fd8aep+5; 0x1.6f102de00d1b7p+5; 0x1.6c6dfa43fe5c9p+5; 0x1.6b8d4fdf3b646p+5; 0x1.62da1cac08312p+5; 0x1.5c8be0ded288dp+5; 0x1.56e147ae147aep+5; 0x1.55c63f141205cp+5; 0x1.5a26e978d4fdfp+5; 0x1.5f428f5c28f5cp+5; 0x1.6236ae7d566cfp+5; 0x1.643573eab367ap+5; 0x1.6766cf41f212dp+5; 0x1.6b271de69ad43p+5; 0x1.6da0902de00d2p+5; 0x1.6d116872b020cp+5; 0x1.6c2cd9e83e426p+5; 0x1.65a5460aa64c3p+5; 0x1.693c9eecbfb16p+5; 0x1.6d3a5e353f7cfp+5; 0x1.6efbe76c8b439p+5; 0x1.6ff10cb295e9ep+5; 0x1.72d07c84b5dccp+5; 0x1.74e3bcd35a858p+5; 0x1.73c5d63886595p+5; 0x1.726a7ef9db22dp+5; 0x1.6fdc91d14e3bdp+5; 0x1.7572e48e8a71ep+5; 0x1.74bafb7e90ff9p+5; 0x1.770b780346dc6p+5; 0x1.767c84b5dcc64p+5; 0x1.75ed5cfaacd9fp+5; 0x1.78a40b780346ep+5; 0x1.76b9c0ebedfa4p+5; 0x1.6e813a92a3055p+5; 0x1.6913dd97f62b7p+5; 0x1.67a40b780346ep+5; 0x1.680a3d70a3d71p+5; 0x1.6d631f8a0902ep+5; 0x1.6db4d6a161e4fp+5; 0x1.6ad566cf41f21p+5; 0x1.6766cf41f212dp+5; 0x1.69e04189374bcp+5; 0x1.60236e2eb1c43p+5; 0x1.614189374bc6ap+5; 0x1.61bc01a36e2ebp+5; 0x1.607525460aa65p+5; 0x1.612d0e5604189p+5; 0x1.5dfbb2fec56d6p+5; 0x1.6671a9fbe76c9p+5; 0x1.696594af4f0d8p+5; 0x1.6f4d9e83e425bp+5; 0x1.6f61e4f765fd9p+5; 0x1.72bc36113404fp+5; 0x1.74bafb7e90ff9p+5; 0x1.747dbf487fcb9p+5; 0x1.7a13dd97f62b7p+5; 0x1.7cb645a1cac08p+5; 0x1.7d827525460aap+5; 0x1.7ef2474538ef3p+5; 0x1.811eb851eb852p+5; 0x1.8770a3d70a3d7p+5; 0x1.895c28f5c28f6p+5; 0x1.882b020c49ba6p+5; 0x1.8947ae147ae14p+5; 0x1.8d851eb851eb8p+5; 0x1.8e00000000000p+5; 0x1.8c51eb851eb85p+5; 0x1.8c3d70a3d70a4p+5; 0x1.8eb851eb851ecp+5; 0x1.8c3d70a3d70a4p+5; 0x1.8866666666666p+5; 0x1.8e147ae147ae1p+5; 0x1.8dae147ae147bp+5; 0x1.8c51eb851eb85p+5; 0x1.8ef5c28f5c28fp+5; 0x1.9028f5c28f5c3p+5; 0x1.91ae147ae147bp+5; 0x1.9600000000000p+5; 0x1.951eb851eb852p+5; 0x1.9c00000000000p+5; 0x1.9dc28f5c28f5cp+5; 0x1.9a66666666666p+5; 0x1.9c8f5c28f5c29p+5; 0x1.9dae48e8a71dep+5; 0x1.9d851eb851eb8p+5; 0x1.a1d70a3d70a3dp+5; 0x1.a133333333333p+5; 0x1.a1d70a3d70a3dp+5; 0x1.a39999999999ap+5; 0x1.a3eb851eb851fp+5; 0x1.a600000000000p+5; 0x1.a770a3d70a3d7p+5; 0x1.a851eb851eb85p+5; 0x1.aee425aee6320p+5; 0x1.ae7ae147ae148p+5; 0x1.aea3d70a3d70ap+5; 0x1.b0521ff2e48e9p+5; 0x1.ae28f5c28f5c3p+5; 0x1.abd70a3d70a3dp+5; 0x1.aaf0068db8bacp+5; 0x1.a70a3d70a3d71p+5; 0x1.a1f837b4a233ap+5; 0x1.9ef5c28f5c28fp+5; 0x1.a651eb851eb85p+5; 0x1.a4b851eb851ecp+5; 0x1.a747ae147ae14p+5; 0x1.a39999999999ap+5; 0x1.aa00000000000p+5; 0x1.a90a3d70a3d71p+5; 0x1.a733333333333p+5; 0x1.a5e24dd2f1aa0p+5; 0x1.abae147ae147bp+5; 0x1.ae7ae147ae148p+5; 0x1.af851eb851eb8p+5; 0x1.af9999999999ap+5; 0x1.b428f5c28f5c3p+5; 0x1.b133333333333p+5; 0x1.b3851eb851eb8p+5; 0x1.b466666666666p+5; 0x1.b5eb851eb851fp+5; 0x1.b4f5c28f5c28fp+5; 0x1.b59999999999ap+5; 0x1.b547ae147ae14p+5; 0x1.b570a3d70a3d7p+5; 0x1.b6147ae147ae1p+5; 0x1.b71eb851eb852p+5; 0x1.b7ae147ae147bp+5; 0x1.b6f5c28f5c28fp+5; 0x1.b6e147ae147aep+5; 0x1.b75c28f5c28f6p+5; 0x1.b733333333333p+5; 0x1.b666666666666p+5; 0x1.b4f5c28f5c28fp+5; 0x1.bd851eb851eb8p+5; 0x1.bc66666666666p+5; 0x1.be147ae147ae1p+5; 0x1.bfae147ae147bp+5; 0x1.c066666666666p+5; 0x1.c170a3d70a3d7p+5; 0x1.c2e147ae147aep+5; 0x1.c47ae147ae148p+5; 0x1.c5d70a3d70a3dp+5; 0x1.c828f5c28f5c3p+5; 0x1.c9d70a3d70a3dp+5; 0x1.ca147ae147ae1p+5; 0x1.c2ccccccccccdp+5; 0x1.c3eb851eb851fp+5; 0x1.c3ae147ae147bp+5; 0x1.c466666666666p+5; 0x1.c7d70a3d70a3dp+5; 0x1.caccccccccccdp+5; 0x1.c9c28f5c28f5cp+5; 0x1.c147ae147ae14p+5; 0x1.c970a3d70a3d7p+5; 0x1.c95c28f5c28f6p+5; 0x1.c91eb851eb852p+5; 0x1.cb5c28f5c28f6p+5; 0x1.cfc28f5c28f5cp+5; 0x1.d08f5c28f5c29p+5; 0x1.d0f5c28f5c28fp+5].
(* test/data/cs-adx.csv 'Low' *)
Definition d032 : list float := [0x1.d683e425aee63p+4; 0x1.d51758e219653p+4; 0x1.df60aa64c2f83p+4; 0x1.cbe8a71de69adp+4; 0x1.c8e7d566cf41fp+4; 0x1.c68793dd97f63p+4; 0x1.c14f0d844d014p+4; 0x1.b6dcc63f14120p+4; 0x1.ba810624dd2f2p+4; 0x1.bd5a1cac08312p+4; 0x1.b6631f8a0902ep+4; 0x1.b17bb2fec56d6p+4; 0x1.a2ebedfa43fe6p+4; 0x1.a2219652bd3c3p+4; 0x1.aa0b0f27bb2ffp+4; 0x1.a2219652bd3c3p+4; 0x1.96e425aee6320p+4; 0x1.95a0f9096bb99p+4; 0x1.9e04189374bc7p+4; 0x1.af6c8b4395810p+4; 0x1.b2460aa64c2f8p+4; 0x1.c032617c1bda5p+4; 0x1.be24dd2f1a9fcp+4; 0x1.bfe28240b7803p+4; 0x1.cc3a92a305532p+4; 0x1.d23e425aee632p+4; 0x1.cb67381d7dbf5p+4; 0x1.cedd2f1a9fbe7p+4; 0x1.e07c84b5dcc64p+4; 0x1.d62e48e8a71dep+4; 0x1.e22f1a9fbe76dp+4; 0x1.e6d3c36113405p+4; 0x1.d58c154c985f0p+4; 0x1.dfd97f62b6ae8p+4; 0x1.d83e425aee632p+4; 0x1.ef119ce075f70p+4; 0x1.f895182a9930cp+4; 0x1.f5ba5e353f7cfp+4; 0x1.eec083126e979p+4; 0x1.f330be0ded289p+4; 0x1.010be0ded288dp+5; 0x1.01d6a161e4f76p+5; 0x1.ff8ef34d6a162p+4; 0x1.f8e631f8a0903p+4; 0x1.01ae48e8a71dep+5; 0x1.05027525460aap+5; 0x1.fc3a29c779a6bp+4; 0x1.fc8b439581062p+4; 0x1.00bac710cb296p+5; 0x1.0185bc01a36e3p+5; 0x1.061e4f765fd8bp+5; 0x1.0856a161e4f76p+5; 0x1.086ae7d566cf4p+5; 0x1.0aa339c0ebee0p+5; 0x1.0dced916872b0p+5; 0x1.0d91d14e3bcd3p+5; 0x1.119cac083126fp+5; 0x1.127be76c8b439p+5; 0x1.1122d0e560419p+5; 0x1.0c8a0902de00dp+5; 0x1.0c8a0902de00dp+5; 0x1.0af41f212d773p+5; 0x1.09afb7e90ff97p+5; 0x1.053f7ced91687p+5; 0x1.063295e9e1b09p+5; 0x1.076353f7ced91p+5; 0x1.08a7ef9db22d1p+5; 0x1.0d182a9930be1p+5; 0x1.0eeae7d566cf4p+5; 0x1.08058793dd97fp+5; 0x1.081a027525461p+5; 0x1.06fd8adab9f56p+5; 0x1.10e631f8a0903p+5; 0x1.0f27bb2fec56dp+5; 0x1.1383afb7e9100p+5; 0x1.1a40b780346dcp+5; 0x1.1e36e2eb1c433p+5; 0x1.1cc9ba5e353f8p+5; 0x1.2009d495182aap+5; 0x1.20abd3c361134p+5; 0x1.1e4b5dcc63f14p+5; 0x1.22a786c22680ap+5; 0x1.1fa43fe5c91d1p+5; 0x1.2349ba5e353f8p+5; 0x1.1eed5cfaacd9fp+5; 0x1.1a0346dc5d639p+5; 0x1.1989d495182aap+5; 0x1.18fbe76c8b439p+5; 0x1.19ef34d6a161ep+5; 0x1.1cfae147ae148p+5; 0x1.15ea4a8c154cap+5; 0x1.13ee978d4fdf4p+5; 0x1.17faacd9e83e4p+5; 0x1.17faacd9e83e4p+5; 0x1.1e16f0068db8cp+5; 0x1.1ea5460aa64c3p+5; 0x1.1e90cb295e9e2p+5; 0x1.20c9ba5e353f8p+5; 0x1.19b98c7e28241p+5; 0x1.16130be0ded29p+5; 0x1.11de353f7ced9p+5; 0x1.10339c0ebedfap+5; 0x1.12fae147ae148p+5; 0x1.124432ca57a78p+5; 0x1.11a161e4f7660p+5; 0x1.18ee978d4fdf4p+5; 0x1.1ecdd2f1a9fbep+5; 0x1.23683e425aee6p+5; 0x1.26fa43fe5c91dp+5; 0x1.2a7837b4a233ap+5; 0x1.2ab53f7ced917p+5; 0x1.2e989374bc6a8p+5; 0x1.30a8f5c28f5c3p+5; 0x1.33c1205bc01a3p+5; 0x1.34780346dc5d6p+5; 0x1.34f1de69ad42cp+5; 0x1.3580346dc5d64p+5; 0x1.398c49ba5e354p+5; 0x1.38c154c985f07p+5; 0x1.3a947ae147ae1p+5; 0x1.3b9c432ca57a8p+5; 0x1.3926b50b0f27cp+5; 0x1.3767d566cf41fp+5; 0x1.3a2ee631f8a09p+5; 0x1.3832fec56d5d0p+5; 0x1.35e5c91d14e3cp+5; 0x1.3716872b020c5p+5; 0x1.3a947ae147ae1p+5; 0x1.37b8ef34d6a16p+5; 0x1.31374bc6a7efap+5; 0x1.3267d566cf41fp+5; 0x1.31d97f62b6ae8p+5; 0x1.3716872b020c5p+5; 0x1.3b5fa43fe5c92p+5; 0x1.3e3afb7e90ff9p+5; 0x1.3f6bb98c7e282p+5; 0x1.3e123a29c779ap+5; 0x1.3ad14e3bcd35bp+5; 0x1.3eb4d6a161e4fp+5; 0x1.3bc538ef34d6ap+5; 0x1.36c56d5cfaacep+5; 0x1.35d14e3bcd35bp+5; 0x1.35a8f5c28f5c3p+5; 0x1.39a0c49ba5e35p+5; 0x1.411652bd3c361p+5; 0x1.421e83e425aeep+5; 0x1.455fa43fe5c92p+5; 0x1.471e4f765fd8bp+5; 0x1.470a0902de00dp+5; 0x1.49e594af4f0d8p+5; 0x1.4c0a0902de00dp+5; 0x1.4ef9a6b50b0f2p+5; 0x1.4f4c2f837b4a2p+5; 0x1.4ee6666666666p+5; 0x1.511f8a0902de0p+5; 0x1.509ff2e48e8a7p+5; 0x1.4bcd35a858794p+5; 0x1.4a4b295e9e1b1p+5; 0x1.4cc154c985f07p+5; 0x1.4dde353f7ced9p+5; 0x1.4a73b645a1cacp+5; 0x1.45af837b4a234p+5; 0x1.43762b6ae7d56p+5; 0x1.4455cfaacd9e8p+5; 0x1.47703afb7e910p+5; 0x1.4bcd35a858794p+5; 0x1.4ebdd97f62b6bp+5; 0x1.4e1b3d07c84b6p+5; 0x1.4fda858793dd9p+5; 0x1.50919ce075f70p+5; 0x1.54617c1bda512p+5; 0x1.548a71de69ad4p+5; 0x1.517141205bc02p+5; 0x1.5250e56041893p+5; 0x1.55189374bc6a8p+5; 0x1.560c7e28240b8p+5; 0x1.53e7a0f9096bcp+5; 0x1.55bb645a1cac1p+5; 0x1.53e7a0f9096bcp+5; 0x1.4f0f5c28f5c29p+5; 0x1.48119ce075f70p+5; 0x1.49f9db22d0e56p+5; 0x1.450ce703afb7fp+5; 0x1.42d35a858793ep+5; 0x1.446a4a8c154cap+5; 0x1.47e90ff972474p+5; 0x1.4be1b089a0275p+5; 0x1.4e43fe5c91d15p+5; 0x1.549eb851eb852p+5; 0x1.58c01a36e2eb2p+5; 0x1.5a6b50b0f27bbp+5; 0x1.59f141205bc02p+5; 0x1.5a93a92a30553p+5; 0x1.5e786c226809dp+5; 0x1.5f809d495182bp+5; 0x1.5de9e1b089a02p+5; 0x1.585a858793dd9p+5; 0x1.57cc2f837b4a2p+5; 0x1.5c67a0f9096bcp+5; 0x1.5b5f3b645a1cbp+5; 0x1.5d989374bc6a8p+5; 0x1.54c74538ef34dp+5; 0x1.56727bb2fec57p+5; 0x1.5c902de00d1b7p+5; 0x1.5d5b8bac710cbp+5; 0x1.5c902de00d1b7p+5; 0x1.5ad0e56041893p+5; 0x1.5c1652bd3c361p+5; 0x1.586e978d4fdf4p+5; 0x1.581d495182a99p+5; 0x1.5f6c56d5cfaadp+5; 0x1.5d1eb851eb852p+5; 0x1.5f068db8bac71p+5; 0x1.5ede00d1b7176p+5; 0x1.5fd21ff2e48e9p+5; 0x1.5b9c432ca57a8p+5; 0x1.5e2305532617cp+5; 0x1.6377ced916873p+5; 0x1.665532617c1bep+5; 0x1.67c3fe5c91d15p+5; 0x1.6ade69ad42c3dp+5; 0x1.6d930be0ded29p+5; 0x1.6df9096bb98c8p+5; 0x1.6dbbcd35a8588p+5; 0x1.6c0ff97247454p+5; 0x1.703367a0f9097p+5; 0x1.6f535a858793ep+5; 0x1.6e9c0ebedfa44p+5; 0x1.6d6a4a8c154cap+5; 0x1.6d7e90ff97247p+5; 0x1.6f01d7dbf4880p+5; 0x1.6a4fdf3b645a2p+5; 0x1.6af2b020c49bap+5; 0x1.6fcd6a161e4f7p+5; 0x1.6b4432ca57a78p+5; 0x1.6da786c22680ap+5; 0x1.69844d013a92ap+5; 0x1.687b4a2339c0fp+5; 0x1.5e7487fcb923ap+5; 0x1.5f178d4fdf3b6p+5; 0x1.5e8902de00d1bp+5; 0x1.5e3780346dc5dp+5; 0x1.58b9f559b3d08p+5; 0x1.533c36113404fp+5; 0x1.55395810624ddp+5; 0x1.566ae7d566cf4p+5; 0x1.5985532617c1cp+5; 0x1.5327bb2fec56dp+5; 0x1.4f2cd9e83e426p+5; 0x1.53507c84b5dccp+5; 0x1.544504816f007p+5; 0x1.543089a027525p+5; 0x1.544504816f007p+5; 0x1.5773b645a1cacp+5; 0x1.5cf1758e21965p+5; 0x1.6034a2339c0ecp+5; 0x1.61b780346dc5dp+5; 0x1.631205bc01a37p+5; 0x1.6297c1bda511ap+5; 0x1.5dbd3c3611340p+5; 0x1.60aee631f8a09p+5; 0x1.5cc8b43958106p+5; 0x1.6151b71758e22p+5; 0x1.65b2617c1bda5p+5; 0x1.69acd9e83e426p+5; 0x1.69844d013a92ap+5; 0x1.6946dc5d63886p+5; 0x1.6df9096bb98c8p+5; 0x1.718db8bac710dp+5; 0x1.713c01a36e2ebp+5; 0x1.746b1c432ca58p+5; 0x1.75d9b3d07c84bp+5; 0x1.76ce3bcd35a86p+5; 0x1.754b295e9e1b1p+5; 0x1.77d70a3d70a3dp+5; 0x1.7a3a29c779a6bp+5; 0x1.7ac8b43958106p+5; 0x1.78f65fd8adabap+5; 0x1.78676c8b43958p+5; 0x1.7c8be0ded288dp+5; 0x1.7da9930be0dedp+5; 0x1.7d95182a9930cp+5; 0x1.7c4ed916872b0p+5; 0x1.7f2cd9e83e426p+5; 0x1.7edb573eab368p+5; 0x1.7eefd21ff2e49p+5; 0x1.7cb4d6a161e4fp+5; 0x1.7f7e5c91d14e4p+5; 0x1.817c84b5dcc64p+5; 0x1.81538ef34d6a1p+5; 0x1.804a57a786c22p+5; 0x1.8370068db8bacp+5; 0x1.85de00d1b7176p+5; 0x1.853afb7e90ff9p+5; 0x1.8a53f7ced9168p+5; 0x1.8d467381d7dbfp+5; 0x1.87f03afb7e910p+5; 0x1.858c7e28240b8p+5; 0x1.89c538ef34d6ap+5; 0x1.8c1eecbfb15b5p+5; 0x1.886a7ef9db22dp+5; 0x1.8f072b020c49cp+5; 0x1.90b367a0f9097p+5; 0x1.8804b5dcc63f1p+5; 0x1.862f837b4a234p+5; 0x1.8b34395810625p+5; 0x1.87f03afb7e910p+5; 0x1.89c538ef34d6ap+5; 0x1.7f04189374bc7p+5; 0x1.7b82de00d1b71p+5; 0x1.4aff2e48e8a72p+5; 0x1.60c56d5cfaacep+5; 0x1.78e1e4f765fd9p+5; 0x1.78016f0068db9p+5; 0x1.7d95182a9930cp+5; 0x1.7c3a92a305532p+5; 0x1.71793dd97f62bp+5; 0x1.6f013a92a3055p+5; 0x1.7032fec56d5d0p+5; 0x1.6adc91d14e3bdp+5; 0x1.60816f0068db9p+5; 0x1.5a73b645a1cacp+5; 0x1.639ce075f6fd2p+5; 0x1.58617c1bda512p+5; 0x1.5f786c226809dp+5; 0x1.6732617c1bda5p+5; 0x1.6812d77318fc5p+5; 0x1.6783e425aee63p+5; 0x1.6783e425aee63p+5; 0x1.6f154c985f06fp+5; 0x1.65fb7e90ff972p+5; 0x1.604467381d7dcp+5; 0x1.5b3f7ced91687p+5; 0x1.5c0b780346dc6p+5; 0x1.606cf41f212d7p+5; 0x1.635f6fd21ff2ep+5; 0x1.69bf141205bc0p+5; 0x1.6a172474538efp+5; 0x1.726dfa43fe5c9p+5; 0x1.738b780346dc6p+5; 0x1.7601d7dbf4880p+5; 0x1.71c6dc5d63886p+5; 0x1.70573eab367a1p+5; 0x1.6cab367a0f909p+5; 0x1.68c226809d495p+5; 0x1.66c36113404eap+5; 0x1.65a5460aa64c3p+5; 0x1.57c1f212d7732p+5; 0x1.54535a858793ep+5; 0x1.4d61e4f765fd9p+5; 0x1.4fef9db22d0e5p+5; 0x1.51367a0f9096cp+5; 0x1.54ce075f6fd22p+5; 0x1.5ca05bc01a36ep+5; 0x1.5fd1b71758e22p+5; 0x1.62da1cac08312p+5; 0x1.6590cb295e9e2p+5; 0x1.6913dd97f62b7p+5; 0x1.6715182a9930cp+5; 0x1.6193404ea4a8cp+5; 0x1.5ffa786c22681p+5; 0x1.5e102de00d1b7p+5; 0x1.63a6809d49518p+5; 0x1.6913dd97f62b7p+5; 0x1.6a31f8a0902dep+5; 0x1.6e6cbfb15b574p+5; 0x1.70d1b71758e22p+5; 0x1.6e2f837b4a234p+5; 0x1.692858793dd98p+5; 0x1.67b886594af4fp+5; 0x1.70d1eb851eb85p+5; 0x1.71236e2eb1c43p+5; 0x1.73226809d4952p+5; 0x1.734b295e9e1b1p+5; 0x1.6f8adab9f559bp+5; 0x1.7572e48e8a71ep+5; 0x1.7160ded288ce7p+5; 0x1.68d6a161e4f76p+5; 0x1.62c5a1cac0831p+5; 0x1.64d8e219652bdp+5; 0x1.6193404ea4a8cp+5; 0x1.6766cf41f212dp+5; 0x1.680a3d70a3d71p+5; 0x1.63a6809d49518p+5; 0x1.637d8adab9f56p+5; 0x1.62da1cac08312p+5; 0x1.5ae90ff972474p+5; 0x1.595ab9f559b3dp+5; 0x1.5b3089a027525p+5; 0x1.56f5c28f5c28fp+5; 0x1.5bfced916872bp+5; 0x1.58a2d0e560419p+5; 0x1.5fbd3c3611340p+5; 0x1.6501d7dbf4880p+5; 0x1.6b8d4fdf3b646p+5; 0x1.6c26809d49518p+5; 0x1.6db4d6a161e4fp+5; 0x1.71b295e9e1b09p+5; 0x1.71236e2eb1c43p+5; 0x1.76a5460aa64c3p+5; 0x1.77c36113404eap+5; 0x1.78a40b780346ep+5; 0x1.7b6f34d6a161ep+5; 0x1.7e00000000000p+5; 0x1.80e17c1bda512p+5; 0x1.84e147ae147aep+5; 0x1.835c28f5c28f6p+5; 0x1.828f5c28f5c29p+5; 0x1.8933333333333p+5; 0x1.8accccccccccdp+5; 0x1.84b851eb851ecp+5; 0x1.88e147ae147aep+5; 0x1.8600000000000p+5; 0x1.863f7ced91687p+5; 0x1.819999999999ap+5; 0x1.8800000000000p+5; 0x1.8747ae147ae14p+5; 0x1.8800000000000p+5; 0x1.88a3d70a3d70ap+5; 0x1.8cf5c28f5c28fp+5; 0x1.8a147ae147ae1p+5; 0x1.923d70a3d70a4p+5; 0x1.915c28f5c28f6p+5; 0x1.950a3d70a3d71p+5; 0x1.9a66666666666p+5; 0x1.935c28f5c28f6p+5; 0x1.96f5c28f5c28fp+5; 0x1.9651eb851eb85p+5; 0x1.99ae147ae147bp+5; 0x1.9eccccccccccdp+5; 0x1.9b5c28f5c28f6p+5; 0x1.9d47ae147ae14p+5; 0x1.9eb851eb851ecp+5; 0x1.a15bc01a36e2fp+5; 0x1.9fd70a3d70a3dp+5; 0x1.a49999999999ap+5; 0x1.a2e147ae147aep+5; 0x1.ac00000000000p+5; 0x1.ac147ae147ae1p+5; 0x1.ab99652bd3c36p+5; 0x1.a9ae147ae147bp+5; 0x1.a8ccccccccccdp+5; 0x1.a547ae147ae14p+5; 0x1.a0e147ae147aep+5; 0x1.a251eb851eb85p+5; 0x1.96ccccccccccdp+5; 0x1.9accccccccccdp+5; 0x1.a10a3d70a3d71p+5; 0x1.a11eb851eb852p+5; 0x1.a15c28f5c28f6p+5; 0x1.9e28f5c28f5c3p+5; 0x1.a47ae147ae148p+5; 0x1.a55c28f5c28f6p+5; 0x1.a0ccccccccccdp+5; 0x1.9f0a3d70a3d71p+5; 0x1.a6b851eb851ecp+5; 0x1.a9ae147ae147bp+5; 0x1.ac00000000000p+5; 0x1.ad70a3d70a3d7p+5; 0x1.ae8f5c28f5c29p+5; 0x1.ad84ea4a8c155p+5; 0x1.af9999999999ap+5; 0x1.b0b851eb851ecp+5; 0x1.b228f5c28f5c3p+5; 0x1.b1d70a3d70a3dp+5; 0x1.b03d70a3d70a4p+5; 0x1.b07ae147ae148p+5; 0x1.b347ae147ae14p+5; 0x1.b147ae147ae14p+5; 0x1.b4f5c28f5c28fp+5; 0x1.b651eb851eb85p+5; 0x1.b4e147ae147aep+5; 0x1.b1ae147ae147bp+5; 0x1.b466666666666p+5; 0x1.b5d70a3d70a3dp+5; 0x1.b466666666666p+5; 0x1.b1ae147ae147bp+5; 0x1.b79999999999ap+5; 0x1.b75c28f5c28f6p+5; 0x1.b88f5c28f5c29p+5; 0x1.bd70a3d70a3d7p+5; 0x1.ba8f5c28f5c29p+5; 0x1.bca3d70a3d70ap+5; 0x1.bf9999999999ap+5; 0x1.c19999999999ap+5; 0x1.c347ae147ae14p+5; 0x1.c3ae147ae147bp+5; 0x1.c3eb851eb851fp+5; 0x1.c28f5c28f5c29p+5; 0x1.bd70a3d70a3d7p+5; 0x1.bd33333333333p+5; 0x1.bd70a3d70a3d7p+5; 0x1.c066666666666p+5; 0x1.c39999999999ap+5; 0x1.c75c28f5c28f6p+5; 0x1.bbc28f5c28f5cp+5; 0x1.bb1eb851eb852p+5; 0x1.c2e147ae147aep+5; 0x1.c6b851eb851ecp+5; 0x1.c333333333333p+5; 0x1.c733333333333p+5; 0x1.cb33333333333p+5; 0x1.cc7ae147ae148p+5; 0x1.ce00000000000p+5].
(* test/data/cs-adx.csv 'Close' *)
Definition d033 : list float := [0x1.ddf3b645a1cacp+4; 0x1.e3cf41f212d77p+4; 0x1.e197f62b6ae7dp+4; 0x1.ce71de69ad42cp+4; 0x1.cec28f5c28f5cp+4; 0x1.c7a3d70a3d70ap+4; 0x1.c8e7d566cf41fp+4; 0x1.b8ebedfa43fe6p+4; 0x1.c77ae147ae148p+4; 0x1.c4793dd97f62bp+4; 0x1.b7cfaacd9e83ep+4; 0x1.b3b22d0e56042p+4; 0x1.a59c779a6b50bp+4; 0x1.a54b5dcc63f14p+4; 0x1.b0886594af4f1p+4; 0x1.a38db8bac710dp+4; 0x1.a03afb7e90ff9p+4; 0x1.975e353f7ced9p+4; 0x1.b0886594af4f1p+4; 0x1.b72de00d1b717p+4; 0x1.c5bcd35a85879p+4; 0x1.c6d844d013a93p+4; 0x1.bf3f7ced91687p+4; 0x1.d02f837b4a234p+4; 0x1.d60aa64c2f838p+4; 0x1.d5b8bac710cb3p+4; 0x1.ce923a29c779ap+4; 0x1.e9d6a161e4f76p+4; 0x1.e0cd9e83e425bp+4; 0x1.e30624dd2f1aap+4; 0x1.f1ec56d5cfaadp+4; 0x1.e891d14e3bcd3p+4; 0x1.dc85f06f69446p+4; 0x1.e0a4a8c154c98p+4; 0x1.e7c710cb295eap+4; 0x1.f778d4fdf3b64p+4; 0x1.006978d4fdf3bp+5; 0x1.ff8ef34d6a162p+4; 0x1.f2154c985f06fp+4; 0x1.fa7b4a2339c0fp+4; 0x1.0516872b020c5p+5; 0x1.04b15b573eab3p+5; 0x1.0185bc01a36e3p+5; 0x1.00cf0d844d014p+5; 0x1.0777ced916873p+5; 0x1.08058793dd97fp+5; 0x1.ff147ae147ae1p+4; 0x1.031b3d07c84b6p+5; 0x1.03e6666666666p+5; 0x1.066fd21ff2e49p+5; 0x1.0b089a0275254p+5; 0x1.0b59b3d07c84bp+5; 0x1.095e69ad42c3dp+5; 0x1.0d03afb7e9100p+5; 0x1.0fb5dcc63f141p+5; 0x1.106c56d5cfaadp+5; 0x1.15d013a92a305p+5; 0x1.1593404ea4a8cp+5; 0x1.15a7525460aa6p+5; 0x1.0f27bb2fec56dp+5; 0x1.0f504816f0069p+5; 0x1.1043c9eecbfb1p+5; 0x1.0cef694467382p+5; 0x1.05b923a29c77ap+5; 0x1.08a7bb2fec56dp+5; 0x1.087f2e48e8a72p+5; 0x1.0f645a1cac083p+5; 0x1.10a8f5c28f5c3p+5; 0x1.0fb5dcc63f141p+5; 0x1.0ab780346dc5dp+5; 0x1.09d844d013a93p+5; 0x1.13c0b780346dcp+5; 0x1.11d97f62b6ae8p+5; 0x1.15051eb851eb8p+5; 0x1.186dc5d638866p+5; 0x1.206f34d6a161ep+5; 0x1.20d495182a993p+5; 0x1.1ff559b3d07c8p+5; 0x1.233573eab367ap+5; 0x1.23868db8bac71p+5; 0x1.22a786c22680ap+5; 0x1.24df6fd21ff2ep+5; 0x1.23d7a786c2268p+5; 0x1.23d7a786c2268p+5; 0x1.227ec56d5cfabp+5; 0x1.1c8ce703afb7fp+5; 0x1.19c6a7ef9db23p+5; 0x1.1c765fd8adabap+5; 0x1.1beab367a0f91p+5; 0x1.1ef65fd8adabap+5; 0x1.16645a1cac083p+5; 0x1.15c1bda5119cep+5; 0x1.1a706f6944674p+5; 0x1.1ffe90ff97247p+5; 0x1.20a0f9096bb99p+5; 0x1.214395810624ep+5; 0x1.20b53f7ced917p+5; 0x1.20de00d1b7176p+5; 0x1.1a84ea4a8c155p+5; 0x1.1902a9930be0ep+5; 0x1.1206f69446738p+5; 0x1.1374bc6a7ef9ep+5; 0x1.13ee978d4fdf4p+5; 0x1.151f559b3d07dp+5; 0x1.1a706f6944674p+5; 0x1.1b786c226809dp+5; 0x1.24fe90ff97247p+5; 0x1.287c84b5dcc64p+5; 0x1.2a12d77318fc5p+5; 0x1.2cedfa43fe5c9p+5; 0x1.2efe5c91d14e4p+5; 0x1.31889a0275254p+5; 0x1.384710cb295eap+5; 0x1.35e5c91d14e3cp+5; 0x1.384710cb295eap+5; 0x1.393afb7e90ff9p+5; 0x1.3832fec56d5d0p+5; 0x1.3a0624dd2f1aap+5; 0x1.39123a29c779ap+5; 0x1.3dc1205bc01a3p+5; 0x1.3dc1205bc01a3p+5; 0x1.3b4b295e9e1b1p+5; 0x1.3883e425aee63p+5; 0x1.3c7be76c8b439p+5; 0x1.3a42f837b4a23p+5; 0x1.37902de00d1b7p+5; 0x1.3c67a0f9096bcp+5; 0x1.3e26b50b0f27cp+5; 0x1.3a80346dc5d64p+5; 0x1.315fa43fe5c92p+5; 0x1.35bd3c3611340p+5; 0x1.37e1b089a0275p+5; 0x1.3b883126e978dp+5; 0x1.3fbc9eecbfb16p+5; 0x1.3f6bb98c7e282p+5; 0x1.405fd8adab9f5p+5; 0x1.3fd119ce075f7p+5; 0x1.409c432ca57a8p+5; 0x1.40edc5d638866p+5; 0x1.3daca57a786c2p+5; 0x1.37b8ef34d6a16p+5; 0x1.377c1bda5119dp+5; 0x1.398c49ba5e354p+5; 0x1.404b5dcc63f14p+5; 0x1.434f41f212d77p+5; 0x1.461652bd3c361p+5; 0x1.492eb1c432ca5p+5; 0x1.497fcb923a29cp+5; 0x1.4ac4d013a92a3p+5; 0x1.4bccccccccccdp+5; 0x1.50a43fe5c91d1p+5; 0x1.508ff97247454p+5; 0x1.511ff2e48e8a7p+5; 0x1.5228240b78034p+5; 0x1.52cb295e9e1b1p+5; 0x1.5134395810625p+5; 0x1.4e2f837b4a234p+5; 0x1.4b3f487fcb924p+5; 0x1.50e2b6ae7d567p+5; 0x1.4f6075f6fd220p+5; 0x1.4f9d7dbf487fdp+5; 0x1.45af837b4a234p+5; 0x1.44bb98c7e2824p+5; 0x1.475a858793dd9p+5; 0x1.4d26e978d4fdfp+5; 0x1.4e1b3d07c84b6p+5; 0x1.4f89374bc6a7fp+5; 0x1.517141205bc02p+5; 0x1.5228240b78034p+5; 0x1.523c6a7ef9db2p+5; 0x1.56d810624dd2fp+5; 0x1.560c7e28240b8p+5; 0x1.53d32617c1bdap+5; 0x1.573dd97f62b6bp+5; 0x1.57521ff2e48e9p+5; 0x1.56af4f0d844d0p+5; 0x1.580902de00d1bp+5; 0x1.569b089a02752p+5; 0x1.557e5c91d14e4p+5; 0x1.505495182a993p+5; 0x1.48c8b43958106p+5; 0x1.4e5844d013a93p+5; 0x1.455e69ad42c3dp+5; 0x1.46b81d7dbf488p+5; 0x1.47c04ea4a8c15p+5; 0x1.484ea4a8c154dp+5; 0x1.5068db8bac711p+5; 0x1.5265604189375p+5; 0x1.599fbe76c8b44p+5; 0x1.5a7f62b6ae7d5p+5; 0x1.5cb8ef34d6a16p+5; 0x1.5abc9eecbfb16p+5; 0x1.5d989374bc6a8p+5; 0x1.612bd3c361134p+5; 0x1.62487fcb923a3p+5; 0x1.60521ff2e48e9p+5; 0x1.5ad0e56041893p+5; 0x1.59119ce075f70p+5; 0x1.5ea0f9096bb99p+5; 0x1.5d6fd21ff2e49p+5; 0x1.5ef2474538ef3p+5; 0x1.599fbe76c8b44p+5; 0x1.5a05bc01a36e3p+5; 0x1.5d989374bc6a8p+5; 0x1.5e12a30553261p+5; 0x1.5ca474538ef35p+5; 0x1.5e786c226809dp+5; 0x1.5ccd35a858794p+5; 0x1.5aac3c9eecbfbp+5; 0x1.5e26e978d4fdfp+5; 0x1.5fe69ad42c3cap+5; 0x1.5e8ce703afb7fp+5; 0x1.61e2b6ae7d567p+5; 0x1.5fe69ad42c3cap+5; 0x1.60600d1b71759p+5; 0x1.5c1652bd3c361p+5; 0x1.61cbfb15b573fp+5; 0x1.65c6a7ef9db23p+5; 0x1.67ec8b4395810p+5; 0x1.6a8ce703afb7fp+5; 0x1.6de48e8a71de7p+5; 0x1.6fcd6a161e4f7p+5; 0x1.6e4a57a786c22p+5; 0x1.6f67a0f9096bcp+5; 0x1.6c0ff97247454p+5; 0x1.7164f765fd8aep+5; 0x1.7164f765fd8aep+5; 0x1.6f2a64c2f837bp+5; 0x1.6f67a0f9096bcp+5; 0x1.726dc5d638866p+5; 0x1.70eab367a0f91p+5; 0x1.6c4d013a92a30p+5; 0x1.70d63886594afp+5; 0x1.7127bb2fec56dp+5; 0x1.6cdbc01a36e2fp+5; 0x1.72bf487fcb924p+5; 0x1.6d6a4a8c154cap+5; 0x1.69fe5c91d14e4p+5; 0x1.5f690ff972474p+5; 0x1.609a9fbe76c8bp+5; 0x1.60ebedfa43fe6p+5; 0x1.63b53f7ced917p+5; 0x1.5a8e219652bd4p+5; 0x1.54820c49ba5e3p+5; 0x1.583f7ced91687p+5; 0x1.5b59e83e425afp+5; 0x1.5d42c3c9eecc0p+5; 0x1.5327bb2fec56dp+5; 0x1.5604ea4a8c155p+5; 0x1.538db8bac710dp+5; 0x1.570ded288ce70p+5; 0x1.5656a161e4f76p+5; 0x1.5b82a9930be0ep+5; 0x1.5c39f559b3d08p+5; 0x1.60aee631f8a09p+5; 0x1.62ac3c9eecbfbp+5; 0x1.64e69ad42c3cap+5; 0x1.64bdd97f62b6bp+5; 0x1.64068db8bac71p+5; 0x1.5f690ff972474p+5; 0x1.62fdbf487fcb9p+5; 0x1.62e94467381d8p+5; 0x1.642f1a9fbe76dp+5; 0x1.695b573eab368p+5; 0x1.6a78a0902de01p+5; 0x1.6ade69ad42c3dp+5; 0x1.6c0ff97247454p+5; 0x1.718db8bac710dp+5; 0x1.724504816f007p+5; 0x1.7456a161e4f76p+5; 0x1.775cc63f14120p+5; 0x1.78cb5dcc63f14p+5; 0x1.78dfd8adab9f5p+5; 0x1.77eb50b0f27bbp+5; 0x1.7a4ea4a8c154dp+5; 0x1.7b577318fc505p+5; 0x1.7c9d495182a99p+5; 0x1.7a5119ce075f7p+5; 0x1.7dbdd97f62b6bp+5; 0x1.8063f141205bcp+5; 0x1.7e89d495182aap+5; 0x1.7dfb15b573eabp+5; 0x1.7e6113404ea4bp+5; 0x1.8036113404ea5p+5; 0x1.817c84b5dcc64p+5; 0x1.7fa7525460aa6p+5; 0x1.7fa7525460aa6p+5; 0x1.833d07c84b5ddp+5; 0x1.845a858793dd9p+5; 0x1.8365c91d14e3cp+5; 0x1.84463f141205cp+5; 0x1.8695810624dd3p+5; 0x1.86e7381d7dbf5p+5; 0x1.88e4f765fd8aep+5; 0x1.8d982a9930be1p+5; 0x1.8f58e219652bdp+5; 0x1.8a913404ea4a9p+5; 0x1.8a53f7ced9168p+5; 0x1.8c51eb851eb85p+5; 0x1.8e8ce703afb7fp+5; 0x1.90c7e28240b78p+5; 0x1.92741f212d773p+5; 0x1.9193dd97f62b7p+5; 0x1.890ded288ce70p+5; 0x1.894af4f0d844dp+5; 0x1.9024dd2f1a9fcp+5; 0x1.883c9eecbfb16p+5; 0x1.8dc0ebedfa440p+5; 0x1.81ce075f6fd22p+5; 0x1.7fd04816f0069p+5; 0x1.72fcb923a29c7p+5; 0x1.69bf141205bc0p+5; 0x1.7c8be0ded288dp+5; 0x1.7c25e353f7ceep+5; 0x1.83514e3bcd35bp+5; 0x1.7d2f1a9fbe76dp+5; 0x1.75daee631f8a1p+5; 0x1.770cb295e9e1bp+5; 0x1.71df3b645a1cbp+5; 0x1.6eecbfb15b574p+5; 0x1.614d6a161e4f7p+5; 0x1.6534a2339c0ecp+5; 0x1.63c56d5cfaacep+5; 0x1.64172474538efp+5; 0x1.601b71758e219p+5; 0x1.6d690ff972474p+5; 0x1.6b428f5c28f5cp+5; 0x1.67e9e1b089a02p+5; 0x1.7070068db8bacp+5; 0x1.73f1758e21965p+5; 0x1.673780346dc5dp+5; 0x1.60aa305532618p+5; 0x1.6006f69446738p+5; 0x1.5d147ae147ae1p+5; 0x1.6709d495182aap+5; 0x1.6a7694467381dp+5; 0x1.6a624dd2f1aa0p+5; 0x1.741a36e2eb1c4p+5; 0x1.759db22d0e560p+5; 0x1.76cfaacd9e83ep+5; 0x1.771ff2e48e8a7p+5; 0x1.73ee978d4fdf4p+5; 0x1.710f27bb2fec5p+5; 0x1.6f8adab9f559bp+5; 0x1.69f487fcb923ap+5; 0x1.695119ce075f7p+5; 0x1.680a3d70a3d71p+5; 0x1.5a26e978d4fdfp+5; 0x1.54e28240b7803p+5; 0x1.53ed5cfaacd9fp+5; 0x1.52f80346dc5d6p+5; 0x1.5401a36e2eb1cp+5; 0x1.5edc91d14e3bdp+5; 0x1.60c6dc5d63886p+5; 0x1.6420f9096bb99p+5; 0x1.652a9930be0dfp+5; 0x1.69cbc6a7ef9dbp+5; 0x1.6ba19652bd3c3p+5; 0x1.6bf34d6a161e5p+5; 0x1.61e4f765fd8aep+5; 0x1.64ed5cfaacd9fp+5; 0x1.693c9eecbfb16p+5; 0x1.6449eecbfb15bp+5; 0x1.6d4ed916872b0p+5; 0x1.6f9f559b3d07dp+5; 0x1.72a7bb2fec56dp+5; 0x1.727ec56d5cfabp+5; 0x1.6f8adab9f559bp+5; 0x1.6cd42c3c9eeccp+5; 0x1.6da0902de00d2p+5; 0x1.747dbf487fcb9p+5; 0x1.72e4f765fd8aep+5; 0x1.76a12d77318fcp+5; 0x1.75c49ba5e353fp+5; 0x1.753573eab367ap+5; 0x1.77c36113404eap+5; 0x1.7482de00d1b71p+5; 0x1.6a5ab9f559b3dp+5; 0x1.677b4a2339c0fp+5; 0x1.64ed5cfaacd9fp+5; 0x1.6590cb295e9e2p+5; 0x1.6a219652bd3c3p+5; 0x1.6b8d4fdf3b646p+5; 0x1.660b780346dc6p+5; 0x1.6685f06f69446p+5; 0x1.6303126e978d5p+5; 0x1.5c631f8a0902ep+5; 0x1.5fbd3c3611340p+5; 0x1.5b8240b780347p+5; 0x1.5fbd3c3611340p+5; 0x1.5c116872b020cp+5; 0x1.5aded288ce704p+5; 0x1.653f141205bc0p+5; 0x1.693c9eecbfb16p+5; 0x1.6f3923a29c77ap+5; 0x1.6cbfb15b573ebp+5; 0x1.71236e2eb1c43p+5; 0x1.7293404ea4a8cp+5; 0x1.73ee978d4fdf4p+5; 0x1.791eb851eb852p+5; 0x1.7ab74bc6a7efap+5; 0x1.7d1c432ca57a8p+5; 0x1.7ea0902de00d2p+5; 0x1.7ff5c28f5c28fp+5; 0x1.86a3a29c779a7p+5; 0x1.868f5c28f5c29p+5; 0x1.85851eb851eb8p+5; 0x1.855c28f5c28f6p+5; 0x1.8d47ae147ae14p+5; 0x1.8b1eb851eb852p+5; 0x1.8af5c28f5c28fp+5; 0x1.8a51eb851eb85p+5; 0x1.888f5c28f5c29p+5; 0x1.88147ae147ae1p+5; 0x1.83d70a3d70a3dp+5; 0x1.8d47ae147ae14p+5; 0x1.89d70a3d70a3dp+5; 0x1.8b47ae147ae14p+5; 0x1.8e00000000000p+5; 0x1.8e28f5c28f5c3p+5; 0x1.90e147ae147aep+5; 0x1.9428f5c28f5c3p+5; 0x1.935c28f5c28f6p+5; 0x1.9beb851eb851fp+5; 0x1.9a66666666666p+5; 0x1.968f5c28f5c29p+5; 0x1.99851eb851eb8p+5; 0x1.9a51eb851eb85p+5; 0x1.9d1eb851eb852p+5; 0x1.9f1eb851eb852p+5; 0x1.a03d70a3d70a4p+5; 0x1.a1851eb851eb8p+5; 0x1.a266666666666p+5; 0x1.a170a3d70a3d7p+5; 0x1.a1c28f5c28f5cp+5; 0x1.a63d70a3d70a4p+5; 0x1.a828f5c28f5c3p+5; 0x1.ad5c28f5c28f6p+5; 0x1.ad5c28f5c28f6p+5; 0x1.ade6666666666p+5; 0x1.ab9999999999ap+5; 0x1.adb851eb851ecp+5; 0x1.ab147ae147ae1p+5; 0x1.a4147ae147ae1p+5; 0x1.a2851eb851eb8p+5; 0x1.9b9999999999ap+5; 0x1.9cccccccccccdp+5; 0x1.a370a3d70a3d7p+5; 0x1.a3c28f5c28f5cp+5; 0x1.a747ae147ae14p+5; 0x1.a08f5c28f5c29p+5; 0x1.a8f5c28f5c28fp+5; 0x1.a628f5c28f5c3p+5; 0x1.a5d70a3d70a3dp+5; 0x1.a0ae147ae147bp+5; 0x1.a9851eb851eb8p+5; 0x1.add70a3d70a3dp+5; 0x1.aef5c28f5c28fp+5; 0x1.aec28f5c28f5cp+5; 0x1.af0a3d70a3d71p+5; 0x1.b0a3d70a3d70ap+5; 0x1.b1147ae147ae1p+5; 0x1.b3f5c28f5c28fp+5; 0x1.b266666666666p+5; 0x1.b328f5c28f5c3p+5; 0x1.b147ae147ae14p+5; 0x1.b4a3d70a3d70ap+5; 0x1.b428f5c28f5c3p+5; 0x1.b47ae147ae148p+5; 0x1.b71eb851eb852p+5; 0x1.b7147ae147ae1p+5; 0x1.b5ef9db22d0e5p+5; 0x1.b628f5c28f5c3p+5; 0x1.b55c28f5c28f6p+5; 0x1.b651eb851eb85p+5; 0x1.b547ae147ae14p+5; 0x1.b3ae147ae147bp+5; 0x1.ba7ae147ae148p+5; 0x1.ba1eb851eb852p+5; 0x1.bdeb851eb851fp+5; 0x1.bf5c28f5c28f6p+5; 0x1.bef5c28f5c28fp+5; 0x1.c0a3d70a3d70ap+5; 0x1.c147ae147ae14p+5; 0x1.c470a3d70a3d7p+5; 0x1.c49999999999ap+5; 0x1.c800000000000p+5; 0x1.c947ae147ae14p+5; 0x1.c4147ae147ae1p+5; 0x1.c0e147ae147aep+5; 0x1.bd70a3d70a3d7p+5; 0x1.c39999999999ap+5; 0x1.c4428f5c28f5cp+5; 0x1.c6a3d70a3d70ap+5; 0x1.c970a3d70a3d7p+5; 0x1.bdd70a3d70a3dp+5; 0x1.c000000000000p+5; 0x1.c866666666666p+5; 0x1.c7a3d70a3d70ap+5; 0x1.c875c28f5c28fp+5; 0x1.cb00000000000p+5; 0x1.cd33333333333p+5; 0x1.d033333333333p+5; 0x1.cf70a3d70a3d7p+5].
(* test/data/cs-adx.csv 'ADX' *)
Definition d034 : list float := [nan; nan; nan; nan; nan; nan; nan; nan; nan; nan; nan; nan; nan; nan; nan; nan; nan; nan; nan; nan; nan; nan; nan; nan; nan; nan; nan; 0x1.0caab15c2dfe4p+5; 0x1.013a5b6de4dffp+5; 0x1.dede19c67aa33p+4; 0x1.c5b8cd71377acp+4; 0x1.ae5f4fbbfff5fp+4; 0x1.9c6c74b838c11p+4; 0x1.7f226d1252122p+4; 0x1.6c88640208180p+4; 0x1.6124f8726d04ep+4; 0x1.58710a6407109p+4; 0x1.4ccaa2bb814afp+4; 0x1.3972fd32c625fp+4; 0x1.2b7b1baf88ef2p+4; 0x1.2c063f6499dd9p+4; 0x1.2d677d523b363p+4; 0x1.28debbfd71b04p+4; 0x1.1ba13249ff279p+4; 0x1.1f45a54096c90p+4; 0x1.23aa3740deed6p+4; 0x1.15a21a063b836p+4; 0x1.089a91460e015p+4; 0x1.0975662e32427p+4; 0x1.0a4099b8a34a2p+4; 0x1.1694400e0d090p+4; 0x1.23cac2d1a147ep+4; 0x1.300fa9dc06fc7p+4; 0x1.425b8e4b87bddp+4; 0x1.59b28bbe0ec3fp+4; 0x1.6e7c41ea861b3p+4; 0x1.888527d7b55e2p+4; 0x1.a0b1fd5885d31p+4; 0x1.ba89270b06c44p+4; 0x1.c01525e71a55fp+4; 0x1.c53bb715ab62fp+4; 0x1.c3b617b451abcp+4; 0x1.bd470e61c292bp+4; 0x1.a721a840fc499p+4; 0x1.93b793b5540a4p+4; 0x1.848a2339c0ebfp+4; 0x1.80bce0aba6e25p+4; 0x1.862a305532618p+4; 0x1.9081579e4c86cp+4; 0x1.8054f3c7e3590p+4; 0x1.71504df62d186p+4; 0x1.73e5d23c78565p+4; 0x1.7c1d8409e55c1p+4; 0x1.7d57d1fe64f55p+4; 0x1.859b2d4d4024bp+4; 0x1.9ad31ea5dd74cp+4; 0x1.b1d97f122ed6bp+4; 0x1.c1bdb93392d48p+4; 0x1.d5a62de1ba9aap+4; 0x1.eb7ca0eac6b2dp+4; 0x1.f62d2d7a8c8e2p+4; 0x1.0183b589ba288p+5; 0x1.017a399cd9c00p+5; 0x1.01d81824b9f3bp+5; 0x1.f3d10b8b4e7d4p+4; 0x1.d545a3e39f773p+4; 0x1.b779b8be220f2p+4; 0x1.9a0d0ec163e30p+4; 0x1.7eba70df662c8p+4; 0x1.6e295c19dc4a2p+4; 0x1.5fa4e55ce68aep+4; 0x1.577031dc1b1e7p+4; 0x1.403428abf0b43p+4; 0x1.32d2deca2552ap+4; 0x1.2952c386d2ed8p+4; 0x1.25b0a27a12eb9p+4; 0x1.2206670776160p+4; 0x1.2111b8745033fp+4; 0x1.10dd84fb7ce38p+4; 0x1.0bd9850c43db2p+4; 0x1.115a1f3046efbp+4; 0x1.1a314d650da0dp+4; 0x1.1e43c7f0c4f9ap+4; 0x1.1e2395307e4d1p+4; 0x1.10f64917a1067p+4; 0x1.ff64d10540b1ap+3; 0x1.03c7372be637dp+4; 0x1.100cb22a8a174p+4; 0x1.1d81a8c734069p+4; 0x1.30956902f8d8cp+4; 0x1.44ee226d12521p+4; 0x1.5ed1be1ddd60ap+4; 0x1.80079504df62dp+4; 0x1.9ede25baa4ac2p+4; 0x1.bbf536fe99ce7p+4; 0x1.d910f301eabbdp+4; 0x1.f4186ac570b80p+4; 0x1.0ab85b332c7d3p+5; 0x1.1837a3627037ap+5; 0x1.25e35e08c9d32p+5; 0x1.334a55b6ebb9fp+5; 0x1.39256c35b3403p+5; 0x1.3a27382ae9b89p+5; 0x1.3c410540b1a0fp+5; 0x1.391ed1e7bec0ap+5; 0x1.30af10088bbfcp+5; 0x1.2fd66d7a56de3p+5; 0x1.2f0d443b99334p+5; 0x1.27a0e2dc02cabp+5; 0x1.1456301571815p+5; 0x1.03a8878dfe5aep+5; 0x1.ef62fbfe12bffp+4; 0x1.e2e4e5fdf63a8p+4; 0x1.e1439b456b442p+4; 0x1.e36fa7f8d7ed9p+4; 0x1.e8bd2ff15f535p+4; 0x1.e7a14eb498f96p+4; 0x1.d8f05be85e22dp+4; 0x1.d76bd413e8eb1p+4; 0x1.caa43279cfcfbp+4; 0x1.adeffd1dcd706p+4; 0x1.9054d7fe5936dp+4; 0x1.7751fdf99582bp+4; 0x1.71d40d689e4f1p+4; 0x1.74071ef30a4e3p+4; 0x1.7e6817fc7607cp+4; 0x1.8bad70966b10fp+4; 0x1.996005a98d2cap+4; 0x1.a783eadbab8cep+4; 0x1.b86fa15db3398p+4; 0x1.cfb797b1620d4p+4; 0x1.e7b1e646f1562p+4; 0x1.fdf940c91debap+4; 0x1.09e7484365b06p+5; 0x1.14fd2a8aee053p+5; 0x1.21a38ed875778p+5; 0x1.20899b6f5caf3p+5; 0x1.1bfae50e0c324p+5; 0x1.1d1359436834ap+5; 0x1.1e17c5337b579p+5; 0x1.170998f889ea0p+5; 0x1.071f811f4f50ap+5; 0x1.e90a6d76fbdfep+4; 0x1.ca7572a894086p+4; 0x1.bf3a43279cfd0p+4; 0x1.b4cc7269a9e7cp+4; 0x1.b5f0f6fdf8becp+4; 0x1.b452a213bb9eap+4; 0x1.b8ffb521b55c7p+4; 0x1.bd5746d902653p+4; 0x1.cb39dd5687cc1p+4; 0x1.d81e8dbf70c3bp+4; 0x1.d4ef57c187f53p+4; 0x1.d7b155e36163dp+4; 0x1.ddf5865f2a320p+4; 0x1.ea59137cb4868p+4; 0x1.eb249c61caf63p+4; 0x1.f095b89939219p+4; 0x1.ec9e17423be4bp+4; 0x1.d4231eb3496e1p+4; 0x1.beac322291fb4p+4; 0x1.aabdc41b4d636p+4; 0x1.a571c06c6c39ep+4; 0x1.a5ca95d5bfba9p+4; 0x1.a61d12e5b5d1ep+4; 0x1.953db96942b9cp+4; 0x1.78ff6895eb8f3p+4; 0x1.64c3919fd0148p+4; 0x1.63bacfa9f6defp+4; 0x1.67293a8bed08bp+4; 0x1.7076e9a118e9ep+4; 0x1.77409d495182bp+4; 0x1.7d8e31f1ea938p+4; 0x1.8c3fcd90412b4p+4; 0x1.99e4b9884c6a4p+4; 0x1.9f30797a3f614p+4; 0x1.8da0ac9879defp+4; 0x1.7b4c4552f067ep+4; 0x1.7c50161290fc4p+4; 0x1.794ef2e20a4bbp+4; 0x1.77f228f7700e8p+4; 0x1.6140222efef11p+4; 0x1.4c2d1bf7ad4b2p+4; 0x1.3fd7937fa4251p+4; 0x1.384b8e086bdf5p+4; 0x1.2e8e22d8721c8p+4; 0x1.2a8eadfdd4ac9p+4; 0x1.26d853ceb42dap+4; 0x1.15c736f63652ap+4; 0x1.090a36baa7306p+4; 0x1.07802c2521f88p+4; 0x1.fa9815a07b353p+3; 0x1.e82b80b74a849p+3; 0x1.dae9c6a2e7203p+3; 0x1.d0543393ab431p+3; 0x1.ba679108d15fep+3; 0x1.a4d52022b536bp+3; 0x1.b1dbb2e3ed7acp+3; 0x1.c51a437824d4dp+3; 0x1.e30d5ec303f63p+3; 0x1.07749807c9222p+4; 0x1.2173b2cfcb84dp+4; 0x1.3997704435b9fp+4; 0x1.4eb786cf9279fp+4; 0x1.59426bd032b2ep+4; 0x1.67b3bc24dedcap+4; 0x1.703aad454808bp+4; 0x1.741855ccbb2f1p+4; 0x1.70ef451761459p+4; 0x1.75cc424879ec5p+4; 0x1.7cb5b10c7ce60p+4; 0x1.6a19c75162c92p+4; 0x1.632254533e6b7p+4; 0x1.5d83e806e4f69p+4; 0x1.457fe08aefb2bp+4; 0x1.303f5a5332ad0p+4; 0x1.287c6d897056bp+4; 0x1.24dbb715ab62fp+4; 0x1.3bba01d415967p+4; 0x1.50f6229c0c3aap+4; 0x1.5a01b4a0861cep+4; 0x1.63364104ad0dfp+4; 0x1.784605681ecd5p+4; 0x1.959372be637d8p+4; 0x1.b0c90f07dabfdp+4; 0x1.b7b606b7aa25ep+4; 0x1.b7b909d71956fp+4; 0x1.c50c1e1b73f9dp+4; 0x1.d835b4edb2f66p+4; 0x1.e49c3dd3a025ap+4; 0x1.e54fccc6ed8fcp+4; 0x1.e62322e507563p+4; 0x1.d7a529f094523p+4; 0x1.c779677a629cbp+4; 0x1.ab0a46c5b72edp+4; 0x1.8e3822863cc58p+4; 0x1.7c603056dfe0ap+4; 0x1.6eacbf7bab721p+4; 0x1.6013dc2026e6fp+4; 0x1.4cc1747446230p+4; 0x1.395d7dbf487fdp+4; 0x1.33c73cba9b71ep+4; 0x1.2995f3d7d3911p+4; 0x1.1a1ee78183f92p+4; 0x1.1455d2d01c0cap+4; 0x1.0e5c437d2d525p+4; 0x1.07d75048edafap+4; 0x1.128b020c49ba6p+4; 0x1.1e7e5f16100ccp+4; 0x1.3172ede39dc9bp+4; 0x1.471da52c74d31p+4; 0x1.5c78627cccda4p+4; 0x1.7383152886310p+4; 0x1.80d19ec3a505ep+4; 0x1.91b7a60ef2e21p+4; 0x1.a6c2719497d22p+4; 0x1.ba4c77a7d74a0p+4; 0x1.c1b3bf4a2d4acp+4; 0x1.cc1dce61f842ap+4; 0x1.d9db50be5e750p+4; 0x1.e69d930885e08p+4; 0x1.fb3bd6db43881p+4; 0x1.0300abe9fe360p+5; 0x1.08c46851f8f12p+5; 0x1.0fc295cf09bdfp+5; 0x1.1640e496ededbp+5; 0x1.14321f7a18cadp+5; 0x1.1293c734dd576p+5; 0x1.13b2f944241c4p+5; 0x1.141de6b5ac1edp+5; 0x1.106a9e6eeb702p+5; 0x1.10bebe7444758p+5; 0x1.134eceeab43e6p+5; 0x1.17d4b8cc64c80p+5; 0x1.229f985927b98p+5; 0x1.2f15cf4cd9cd6p+5; 0x1.28bc3e821bce9p+5; 0x1.1c840e750dc91p+5; 0x1.1446ae1f629bdp+5; 0x1.10a45168a8600p+5; 0x1.040befa7c3281p+5; 0x1.f6803bdfaa1f2p+4; 0x1.e85b34a44c7b0p+4; 0x1.d22e52736a5aep+4; 0x1.c31eb95e5aff3p+4; 0x1.a4b91dde37586p+4; 0x1.8ef703a24befcp+4; 0x1.7ac2c69eb5625p+4; 0x1.82785f8d2e515p+4; 0x1.900987d39e782p+4; 0x1.c488ef77f27fep+4; 0x1.f548620401168p+4; 0x1.08144ca346c18p+5; 0x1.0f9003c65e1dcp+5; 0x1.1440d0b813d82p+5; 0x1.1934416b045aep+5; 0x1.2222d0e560419p+5; 0x1.2b542210cc002p+5; 0x1.30f7e0ef99807p+5; 0x1.385ee45c358b0p+5; 0x1.42e53c4a332a0p+5; 0x1.4e83d22a03df9p+5; 0x1.594def91f3b2fp+5; 0x1.667a98aa8650ep+5; 0x1.6b1db2f661f19p+5; 0x1.6c8bc62f23da0p+5; 0x1.6cf2edf109c2fp+5; 0x1.6ad607d185993p+5; 0x1.6892f71dd92eep+5; 0x1.618ee4d5014ebp+5; 0x1.60222947f7e65p+5; 0x1.618d0a31b229bp+5; 0x1.6512f9d7c7d29p+5; 0x1.640447d07929bp+5; 0x1.60edc6f013f9bp+5; 0x1.59e00f92443acp+5; 0x1.4cd27c6ee667bp+5; 0x1.3c2d017dae819p+5; 0x1.29b05029e3ff2p+5; 0x1.182ff6ee0886bp+5; 0x1.05c74f143a49ap+5; 0x1.f1b27b9826d2dp+4; 0x1.dc6ce6e8d7c55p+4; 0x1.cf84581ea506bp+4; 0x1.ca4f6dfc5cdd5p+4; 0x1.c8cbff97fb33fp+4; 0x1.c94640f74114ap+4; 0x1.dc9cc674c3f74p+4; 0x1.f233bc5a8ec1dp+4; 0x1.066e6fea73a6cp+5; 0x1.12cf406cd799bp+5; 0x1.1794a9a58057bp+5; 0x1.14e361e9ffe38p+5; 0x1.0e8c80d4a6b5ep+5; 0x1.061bf7c82319ep+5; 0x1.f48fbbaf6e173p+4; 0x1.d5be276823d5dp+4; 0x1.b4d553b9bb781p+4; 0x1.9979b4062c69fp+4; 0x1.8b8ee957470ebp+4; 0x1.81bf6d4de1346p+4; 0x1.6f3df9e60a8b7p+4; 0x1.5598a1ed2531fp+4; 0x1.41d706268aae4p+4; 0x1.31bee136e71cep+4; 0x1.297afebeb7605p+4; 0x1.2674293228714p+4; 0x1.1bc7f07471c1ep+4; 0x1.0ab42e3aa5ee4p+4; 0x1.fce2f8bdec5f4p+3; 0x1.e7dedbc309d57p+3; 0x1.d45b09dc21d46p+3; 0x1.cdcd731aa9cf7p+3; 0x1.c7b7b03ac5cebp+3; 0x1.aa6d234eb9a17p+3; 0x1.9e60c35986841p+3; 0x1.86917cca55fa0p+3; 0x1.98d711291d2fcp+3; 0x1.c004ca346c185p+3; 0x1.e4661a7bac48dp+3; 0x1.08c27001f09b1p+4; 0x1.0ca20619f5749p+4; 0x1.0f42a9fe6bab5p+4; 0x1.1a77342edbb5ap+4; 0x1.252e49392ef5bp+4; 0x1.26b0405483e5dp+4; 0x1.37752c16df3f9p+4; 0x1.49a32279a78bdp+4; 0x1.58ca61ee31a16p+4; 0x1.6e2037fe740ecp+4; 0x1.7f2b362987b8cp+4; 0x1.94ac352d0876cp+4; 0x1.8b88ff682a8bcp+4; 0x1.7aa09784ec637p+4; 0x1.633701a444ee4p+4; 0x1.4daa37768ed29p+4; 0x1.41ae20395b6b6p+4; 0x1.3b1becfb407dap+4; 0x1.33468ae3f430cp+4; 0x1.386e2b3bedecep+4; 0x1.4269813879c41p+4; 0x1.4d3e57d9dba91p+4; 0x1.5a2b3b172d433p+4; 0x1.6a6dcc3bad554p+4; 0x1.8447a4da3f7c1p+4; 0x1.9f260d4562e0ap+4; 0x1.b1c0890c839c0p+4; 0x1.c4ecdd5e14885p+4; 0x1.dd80430106904p+4; 0x1.f50ce9523e913p+4; 0x1.f182b98343eccp+4; 0x1.ee3943d394673p+4; 0x1.e02b5e884b938p+4; 0x1.d31e77341403cp+4; 0x1.b64d03d9a9542p+4; 0x1.aada5fad0ec16p+4; 0x1.9db72c8747878p+4; 0x1.918433f19f143p+4; 0x1.8d537eb28d866p+4; 0x1.8c8f278580072p+4; 0x1.8023ea8b23b51p+4; 0x1.802d763ff83d9p+4; 0x1.7ca5a525bed67p+4; 0x1.89293d7b8b91ap+4; 0x1.9834f0bd6cdd8p+4; 0x1.8c2d79eb7e68cp+4; 0x1.86092436402dfp+4; 0x1.82ebff2c9b698p+4; 0x1.8007ca7f14b31p+4; 0x1.8756ed677707ap+4; 0x1.811bc9a4fa1ffp+4; 0x1.7cea30c0922bep+4; 0x1.7d6e2435696e6p+4; 0x1.7eb903211cb04p+4; 0x1.8537bd8be7297p+4; 0x1.8eca2b4cb4e48p+4; 0x1.8f8d57511fad4p+4; 0x1.9f9ece8cc06d4p+4; 0x1.ae8a74122093fp+4; 0x1.b9ff3442fdab9p+4; 0x1.bb190fb65668cp+4; 0x1.b7d3c41cfae29p+4; 0x1.a4d80b3ef8635p+4; 0x1.8aec7b6e3567cp+4; 0x1.72dae3963cedcp+4; 0x1.7bd06177135cdp+4; 0x1.84220d2079f31p+4; 0x1.71ced916872b0p+4; 0x1.60cabb0f35273p+4; 0x1.48e15aa8c3025p+4; 0x1.3bd7bba8b81a9p+4; 0x1.2d618b1a7ad59p+4; 0x1.1ff3cbc48f10bp+4; 0x1.10ae373017f5cp+4; 0x1.073df6c0bc1d5p+4; 0x1.f60acf66db007p+3; 0x1.ed5a9b8cb8e08p+3; 0x1.ea6463c24737dp+3; 0x1.e80da539e0cc6p+3; 0x1.fc3585886a9d3p+3; 0x1.03991c9c17f92p+4; 0x1.0e43e8576cce6p+4; 0x1.1a4097198c990p+4; 0x1.28ff11de4ed55p+4; 0x1.353aa5177c1d8p+4; 0x1.3933a14cec41ep+4; 0x1.3ce3f95414545p+4; 0x1.40d3131d13364p+4; 0x1.3a55536933a04p+4; 0x1.38197afb48e12p+4; 0x1.3817ee68fec72p+4; 0x1.303ffb62e24d6p+4; 0x1.1b9d61dae66b0p+4; 0x1.0877a22dbcd1bp+4; 0x1.ed6004eda58a7p+3; 0x1.d651662421478p+3; 0x1.d9496b83dc98fp+3; 0x1.dc2e34c6b129ep+3; 0x1.dcac2ce464990p+3; 0x1.e88614ecf70ecp+3; 0x1.fde767b875fdbp+3; 0x1.f58167084cd5ap+3; 0x1.f527a7af06127p+3; 0x1.fef6311475021p+3; 0x1.09704a657edfep+4; 0x1.1719f44d44567p+4; 0x1.2ad2758339dbcp+4; 0x1.41d4df04ddb55p+4; 0x1.4ef1fc9c9e30ep+4; 0x1.40ee0b5b7dd51p+4; 0x1.3807802701cc9p+4; 0x1.2fc3b5ccd6071p+4; 0x1.2af3bc903ea70p+4; 0x1.32f5091120b9bp+4; 0x1.43665b134c0d2p+4; 0x1.35240746455ebp+4; 0x1.29cd7f7a33a2cp+4; 0x1.229ced7690801p+4; 0x1.1befd397c2290p+4; 0x1.0a23632c1f42cp+4; 0x1.002171d52f71ep+4; 0x1.02662bae03b3fp+4; 0x1.067a6fedcea51p+4; 0x1.0b4b57313f3d3p+4].
(* test/data/cs-adx.csv '+DI14' *)
Definition d035 : list float := [nan; nan; nan; nan; nan; nan; nan; nan; nan; nan; nan; nan; nan; nan; 0x1.aff679d9e0b18p+2; 0x1.92afc4e9a97c6p+2; 0x1.7208cb153ca82p+2; 0x1.5258b96a19795p+2; 0x1.165ca12076981p+3; 0x1.8fb68e31868adp+3; 0x1.0adb37288b398p+4; 0x1.0a11633482be9p+4; 0x1.0b197a5a39318p+4; 0x1.1eee6bd38db13p+4; 0x1.6ba1bab57313fp+4; 0x1.59c24f6598e11p+4; 0x1.3f3b6ef14f631p+4; 0x1.7d0b90f80a684p+4; 0x1.6d04000a10fb0p+4; 0x1.49cf79349f440p+4; 0x1.5f7343a9a2fc2p+4; 0x1.4dff563c4cb77p+4; 0x1.31f28a463f7f7p+4; 0x1.65eccc971ce79p+4; 0x1.4a8599d2a47d2p+4; 0x1.bff0e34762952p+4; 0x1.ba6e2e613c5b0p+4; 0x1.a449d51b4fe7ap+4; 0x1.8491881d70535p+4; 0x1.8ab249ae9fbb2p+4; 0x1.cfd61aa3f034bp+4; 0x1.c44ada8445748p+4; 0x1.aed4549b62c77p+4; 0x1.993cf3201daccp+4; 0x1.f4abab7f752b2p+4; 0x1.e6d964c073f8fp+4; 0x1.b7a4ceec61bd9p+4; 0x1.a0ac122749f0ep+4; 0x1.ddfe01de26916p+4; 0x1.c555684711369p+4; 0x1.05752d234eb9ap+5; 0x1.fdbd3f0ad7ca5p+4; 0x1.e673ff25e56cdp+4; 0x1.0120cb0e86ab8p+5; 0x1.0db189d85b765p+5; 0x1.01a2174c4cdfbp+5; 0x1.17551a50e41e2p+5; 0x1.0cb97aaac1095p+5; 0x1.0ba3a95274412p+5; 0x1.d919fec99f1aep+4; 0x1.b71efa615a8dfp+4; 0x1.918f672b88440p+4; 0x1.7216edb7fedf7p+4; 0x1.550307365526ap+4; 0x1.48823ffb98923p+4; 0x1.48556069cd233p+4; 0x1.6d01c7805cb1bp+4; 0x1.92b7661862cd5p+4; 0x1.9dfb30a83e781p+4; 0x1.7c83a1fb67eadp+4; 0x1.678a3c495c6a6p+4; 0x1.a5a45996744b3p+4; 0x1.ba2863b180403p+4; 0x1.9b91634f5ab12p+4; 0x1.bacba3f2b8efap+4; 0x1.09796c17804f4p+5; 0x1.0da4e3440796dp+5; 0x1.0220908bd3de4p+5; 0x1.14efb2c5ba89dp+5; 0x1.19467fc689bcbp+5; 0x1.04cc24c404a73p+5; 0x1.08e90eb752e80p+5; 0x1.e7a9415cc1a1fp+4; 0x1.d97df0406f5bep+4; 0x1.be12a9f0ffb20p+4; 0x1.92baedf7bfbfap+4; 0x1.79f83a53b8e4cp+4; 0x1.5f9145f32957fp+4; 0x1.4f4d6a4bce34bp+4; 0x1.716ae4caf053cp+4; 0x1.4a6f89755f27bp+4; 0x1.3b0cc342098fdp+4; 0x1.7d06e4557f8e5p+4; 0x1.9f038ab42388ap+4; 0x1.a281952b75cf9p+4; 0x1.af7bff1f2f703p+4; 0x1.95ad24405128ep+4; 0x1.949710bdbd655p+4; 0x1.711ffbe91a0a7p+4; 0x1.5ca4baaf93d6ep+4; 0x1.3ba316857d82ep+4; 0x1.29f726f8924d7p+4; 0x1.35d83382e44b7p+4; 0x1.38c567125dd09p+4; 0x1.5ede468cac4b5p+4; 0x1.6ff2375500e35p+4; 0x1.f5c98d2ca3cd0p+4; 0x1.10ffd90b9f707p+5; 0x1.107a30629e5adp+5; 0x1.27a0c2fb92b2fp+5; 0x1.25fd46115c48dp+5; 0x1.3fdabe5cc7813p+5; 0x1.5d25cf67b1c00p+5; 0x1.47f5d165b8c18p+5; 0x1.38cd55b10c7cep+5; 0x1.32407a0de3179p+5; 0x1.22d4c9e3e4408p+5; 0x1.4840035afe535p+5; 0x1.3897ecf12f82ap+5; 0x1.35f0ee64cd093p+5; 0x1.330277b6f0c27p+5; 0x1.1bdbbfaed7188p+5; 0x1.063fae3608d09p+5; 0x1.fd5861dbbd2aap+4; 0x1.dec6aa59047e1p+4; 0x1.c134a9c0584a4p+4; 0x1.05f3ca4cbfcc3p+5; 0x1.ee1d1b4931a24p+4; 0x1.c31405c10a20fp+4; 0x1.8d43527fff94ap+4; 0x1.84006d2821874p+4; 0x1.9125d57c9eb71p+4; 0x1.bea217ed5c8f5p+4; 0x1.f79082136b16dp+4; 0x1.00fcb6848beb6p+5; 0x1.033a42c9a92bep+5; 0x1.e91ea1e166b7cp+4; 0x1.bf4493c89f40ap+4; 0x1.fa0f3c7e35900p+4; 0x1.d7ac3b41f56ddp+4; 0x1.964538d45ce40p+4; 0x1.84cf3d54f524ep+4; 0x1.7f5df365bdca0p+4; 0x1.df82d9e9ebc18p+4; 0x1.065567b36d803p+5; 0x1.1d6a6754a2ef8p+5; 0x1.21ad1e463c247p+5; 0x1.1cf3d4a0d6a4cp+5; 0x1.1535ad1ddadc6p+5; 0x1.1f0455dd8226bp+5; 0x1.391b4817c6c62p+5; 0x1.3977923018cc8p+5; 0x1.2a66036a17cbdp+5; 0x1.1ed9de481f538p+5; 0x1.1de2442d567a6p+5; 0x1.23458537e2c56p+5; 0x1.048fb2829eab5p+5; 0x1.ea444127e87c5p+4; 0x1.0dc51eb851eb8p+5; 0x1.f7cd4c9f1503ap+4; 0x1.c1588806ca1eap+4; 0x1.8863f8e8b489ep+4; 0x1.72ebe88666b6fp+4; 0x1.75e6a04809841p+4; 0x1.cb20b5d2b5442p+4; 0x1.bc0316857d82ep+4; 0x1.fe1a9f6deef0ep+4; 0x1.e2bda272862f6p+4; 0x1.fbcaa0f32a2eap+4; 0x1.e5de4473cd573p+4; 0x1.104fb87cb3afcp+5; 0x1.0711b7aafc987p+5; 0x1.ea4c10ca529f1p+4; 0x1.f7a457b3453c5p+4; 0x1.fc975c3d17b88p+4; 0x1.09432419babc3p+5; 0x1.e7f88fae5e4ccp+4; 0x1.ec3a73e9dca81p+4; 0x1.b8121632716c5p+4; 0x1.8cacd68d3fef0p+4; 0x1.6290a1887b642p+4; 0x1.45e6903cf9859p+4; 0x1.1f6ed824efa39p+4; 0x1.063a563d23770p+4; 0x1.f4155e36163c8p+3; 0x1.415dc3e59d7e3p+4; 0x1.712cfbc6b55b9p+4; 0x1.837bf84e5ad6ep+4; 0x1.e5b75f98160bep+4; 0x1.fb93d5d58a0abp+4; 0x1.0de1494e27ab4p+5; 0x1.fa5ff2437edadp+4; 0x1.dfa74264289e8p+4; 0x1.0a4b28954a7f8p+5; 0x1.003f50fe1f553p+5; 0x1.e1bd67ba237cep+4; 0x1.aef5498de88b7p+4; 0x1.9d300ebb84a5fp+4; 0x1.0134e5ad6e62bp+5; 0x1.eb14cb4e478bbp+4; 0x1.eafd5687cc11cp+4; 0x1.a8a95a8735130p+4; 0x1.916641ce00a97p+4; 0x1.e5b994c6cc01dp+4; 0x1.ebcc92d051bc9p+4; 0x1.ca98b3a5b45a1p+4; 0x1.bdcd89dbb674ap+4; 0x1.a778aa8650e78p+4; 0x1.8a7d0fa58f712p+4; 0x1.7d75cabd28142p+4; 0x1.b30450c798b06p+4; 0x1.94e839f5c513ap+4; 0x1.81ac64ad28c29p+4; 0x1.7898b96a19795p+4; 0x1.6c54240ed301ap+4; 0x1.53190158c593fp+4; 0x1.76252ec361ea0p+4; 0x1.cfb9f8ea62091p+4; 0x1.dbd17dbbed818p+4; 0x1.fd4f1a1986b9cp+4; 0x1.19f9c0a8d21bcp+5; 0x1.2d965e4606749p+5; 0x1.233b884406c01p+5; 0x1.1750b1861f695p+5; 0x1.035038418fed5p+5; 0x1.004f1aba96696p+5; 0x1.e8e52ae22bd9ap+4; 0x1.c8c0c323d69eep+4; 0x1.b25300a89c6bep+4; 0x1.cb006de409297p+4; 0x1.bded268ee0023p+4; 0x1.8cefff87343c4p+4; 0x1.a7a175d13d74dp+4; 0x1.9d425bdffaa70p+4; 0x1.6eaf8147933c9p+4; 0x1.5cedc047834c5p+4; 0x1.2e5a35bba3afap+4; 0x1.0be77d1c8b510p+4; 0x1.ca2c7e0d4c18ep+3; 0x1.b3ac075a6754ap+3; 0x1.ec60091f63729p+3; 0x1.c3353d99be828p+3; 0x1.890f9137cb487p+3; 0x1.58dbcd1ad065ep+3; 0x1.497f9038c7c7bp+3; 0x1.c4922856605eep+3; 0x1.e5f70e8a067eap+3; 0x1.af170d2d0f2ccp+3; 0x1.8ce1309c7ffdep+3; 0x1.a7bffe5280d65p+3; 0x1.e6b588e368f08p+3; 0x1.cdac1d29dc726p+3; 0x1.166d6055ab2d4p+4; 0x1.1154f82f51266p+4; 0x1.47b0c422da1fap+4; 0x1.5fc84746e66e6p+4; 0x1.87efd6d7e889cp+4; 0x1.8a54006804cc1p+4; 0x1.770a2f48c2e77p+4; 0x1.5888aa93bce0cp+4; 0x1.4a5332fd834e0p+4; 0x1.2d1572078458cp+4; 0x1.395029ae4f334p+4; 0x1.8a38066c2acb8p+4; 0x1.b51d0f1f57b42p+4; 0x1.a263e0e588857p+4; 0x1.8f08b6bd96ceep+4; 0x1.ed932c980e7f2p+4; 0x1.f4b5b5c4728b3p+4; 0x1.0d89934190c41p+5; 0x1.13a9a7c17a893p+5; 0x1.0e13eee525892p+5; 0x1.1186fb81ebfdfp+5; 0x1.016d61b2a27f2p+5; 0x1.0c7a68bf063abp+5; 0x1.1debf4bdac9e6p+5; 0x1.13057cef3ee7ap+5; 0x1.f77bb4916ca47p+4; 0x1.e0b2d7f950b95p+4; 0x1.e70d72ffd1dcdp+4; 0x1.d0eaacb1a4526p+4; 0x1.0002e217b7acbp+5; 0x1.d8fa2e2ee7741p+4; 0x1.cec8beb5b2d4dp+4; 0x1.d090c52f4999ap+4; 0x1.b8a1ed2531e8bp+4; 0x1.84f28ae74f2f1p+4; 0x1.6c11e98717b6dp+4; 0x1.794f231e1239cp+4; 0x1.60c27418d690ap+4; 0x1.463da31395df0p+4; 0x1.64eccda38c61ap+4; 0x1.7919f10d1df5bp+4; 0x1.80b13ad5bee3dp+4; 0x1.dd6b3969ae198p+4; 0x1.023f04eb214bbp+5; 0x1.c4fa5e1a678a5p+4; 0x1.98bf8e1fe8d39p+4; 0x1.aea5a0f400ee4p+4; 0x1.d5997d1427d53p+4; 0x1.96391cb6efebbp+4; 0x1.a7bd2432e52fap+4; 0x1.a5258c30fb4a9p+4; 0x1.6898810045a02p+4; 0x1.4d1cda610a061p+4; 0x1.a73c6fbd273d6p+4; 0x1.75d0e3cd9a522p+4; 0x1.51824edf61240p+4; 0x1.17828423e68f1p+4; 0x1.015ecaab8a5cep+4; 0x1.33f08aac96cc6p+3; 0x1.0945fc2de3682p+3; 0x1.8e83184dd49f3p+3; 0x1.d8a7b7698e391p+3; 0x1.ef2235ea9d983p+3; 0x1.d293c40222effp+3; 0x1.ad925aab47410p+3; 0x1.91929fe004b7fp+3; 0x1.a9b7945663b9ep+3; 0x1.907a24f4ac0eep+3; 0x1.69c4662bae03bp+3; 0x1.41f5716674a92p+3; 0x1.363ec85cfb83ap+3; 0x1.1d480b318c6a0p+3; 0x1.8f4ebb84a5ec9p+3; 0x1.a1492ff4ba51ap+3; 0x1.a0c2e5c33dd7dp+3; 0x1.b46385e155f0dp+3; 0x1.9e62456f75d9ap+3; 0x1.e661158edd7dfp+3; 0x1.b7c1d811a46d3p+3; 0x1.99d32bc14eea5p+3; 0x1.8556bb98c7e28p+3; 0x1.b817239d93fa2p+3; 0x1.bdb39d868e242p+3; 0x1.f2f93392d4838p+3; 0x1.2f17594d792f9p+4; 0x1.494a909792586p+4; 0x1.6056c6b632569p+4; 0x1.5867c1b039185p+4; 0x1.67c4fbe8434aep+4; 0x1.48665c1fbb873p+4; 0x1.333e518f3ecccp+4; 0x1.2351b5d53982ep+4; 0x1.129dc450fd489p+4; 0x1.0525dc4d73506p+4; 0x1.ef0aae0e9ba43p+3; 0x1.aca38dd971f6cp+3; 0x1.8f807ee0b0af6p+3; 0x1.705962dd44ea1p+3; 0x1.5e4470ddb8ad6p+3; 0x1.b961cebc91156p+3; 0x1.0b489e69e2f2bp+4; 0x1.267405f6ba062p+4; 0x1.36fe2af8d20e5p+4; 0x1.5834c87980f56p+4; 0x1.7c484e3292fa4p+4; 0x1.914f7c243dccfp+4; 0x1.7a4df3de898dbp+4; 0x1.550539c5f46b7p+4; 0x1.42b55043e5322p+4; 0x1.564fa43279cfdp+4; 0x1.72514ef7b4d7ep+4; 0x1.683242726b576p+4; 0x1.635e13e73d916p+4; 0x1.7f8a5ff02a9fep+4; 0x1.906e331932003p+4; 0x1.7a8f9d2bf5515p+4; 0x1.58f12b50e6a26p+4; 0x1.3e2f4999a7059p+4; 0x1.7b764500bb10ep+4; 0x1.6e033a1173c5dp+4; 0x1.843d53cddd6e0p+4; 0x1.768b79cb9df8ap+4; 0x1.5d28d21bc126ap+4; 0x1.7fbcfc3f811f5p+4; 0x1.64c11ab232ed9p+4; 0x1.395e905e8774dp+4; 0x1.20ccf32d89a60p+4; 0x1.1816717664e13p+4; 0x1.04805d1d1188cp+4; 0x1.4a16b76709fa5p+4; 0x1.3b6971e95167dp+4; 0x1.20e0b49095e4ep+4; 0x1.147ab0856e697p+4; 0x1.2a7d2f6b27964p+4; 0x1.108abfe202befp+4; 0x1.f37acc4ef88b9p+3; 0x1.e109632060c89p+3; 0x1.b1f0da935eecfp+3; 0x1.b270bff11c377p+3; 0x1.99ad5644b0334p+3; 0x1.3dfeb1d19ec3ap+4; 0x1.60a8d251710bep+4; 0x1.ad6de4c51116bp+4; 0x1.9fab7e330bc60p+4; 0x1.bf3da851c3413p+4; 0x1.d13950331e3a8p+4; 0x1.beecb641700cep+4; 0x1.03c1ddf0e17f1p+5; 0x1.0d8695380b095p+5; 0x1.05676a21dcc9ap+5; 0x1.08466a11ec919p+5; 0x1.14010540b1a0fp+5; 0x1.3975a1afe8907p+5; 0x1.3b22593377fc9p+5; 0x1.27aade72e77e3p+5; 0x1.19c6d7a56de33p+5; 0x1.272ea4807d68ep+5; 0x1.201385c67dfe3p+5; 0x1.04ff8b3db643fp+5; 0x1.f3a2e58d8df2ap+4; 0x1.be3717f9f1c90p+4; 0x1.9d7f8f11805b0p+4; 0x1.7b7e121ee6751p+4; 0x1.b745aeb082137p+4; 0x1.97088e0e4b1c6p+4; 0x1.826b0658df952p+4; 0x1.9740b871cbf53p+4; 0x1.9eb8021f94f0cp+4; 0x1.7955f4ae9325ep+4; 0x1.b50a83cca8baap+4; 0x1.a0ce8b2dc60bfp+4; 0x1.f8edc351f9c7dp+4; 0x1.0357022a7cab5p+5; 0x1.da7d874a0bbcdp+4; 0x1.e1da2f05a708fp+4; 0x1.cd05a15f60b8ap+4; 0x1.b76f614c4b323p+4; 0x1.f341c05f00409p+4; 0x1.cf3b679a430ccp+4; 0x1.c194378fb9460p+4; 0x1.c9768bc81fbeep+4; 0x1.c0c2d4760e7a1p+4; 0x1.c81f410de7495p+4; 0x1.c463195a44193p+4; 0x1.a450fb65668c2p+4; 0x1.036d7f7a33a2cp+5; 0x1.f6360ff1e58b1p+4; 0x1.e126aafa142dbp+4; 0x1.b5f5005d1d119p+4; 0x1.9641948a661ffp+4; 0x1.69d79131154bcp+4; 0x1.3cc51e4cf2212p+4; 0x1.2a417ea0190fap+4; 0x1.01f131154bc1ap+4; 0x1.ea8a20eb3212ap+3; 0x1.60600218def41p+4; 0x1.518799369d4b0p+4; 0x1.6a21f0d0b813ep+4; 0x1.44ba887732668p+4; 0x1.93330270f3882p+4; 0x1.8272cd97cde78p+4; 0x1.668cc2f181b80p+4; 0x1.4b074736f6365p+4; 0x1.8713cd06ae6ffp+4; 0x1.a2ac174a9f608p+4; 0x1.a4cf652d81429p+4; 0x1.9b99e3a124a85p+4; 0x1.d6c65b134c0d2p+4; 0x1.c1a4a8204519ep+4; 0x1.d9fdb827235a8p+4; 0x1.d5ae5e170c8c0p+4; 0x1.de6b7c6ab4a9cp+4; 0x1.ca37dc7abfb9cp+4; 0x1.a903e54cf652ep+4; 0x1.8d4116d0fcdd3p+4; 0x1.84b3af74cd317p+4; 0x1.6a1ccb11e1a9dp+4; 0x1.748e410b630a9p+4; 0x1.7a9bed9c502d4p+4; 0x1.6d284c6a3bde0p+4; 0x1.4edf4bbff1f2fp+4; 0x1.4b393ecb16ea2p+4; 0x1.40d50bb0376adp+4; 0x1.3577a355043e5p+4; 0x1.21952f3c2dadcp+4; 0x1.d0e822e43096ap+4; 0x1.ab689abe5cc78p+4; 0x1.b094dfdb9d4a3p+4; 0x1.ca8f492e473b2p+4; 0x1.9fdaf102363b2p+4; 0x1.9a96168d0a3f2p+4; 0x1.aa12f8e6304b2p+4; 0x1.bdd24de05da35p+4; 0x1.cf692a4b2d250p+4; 0x1.eb16f4f433432p+4; 0x1.e77bd2df35852p+4; 0x1.ae2f78feef5edp+4; 0x1.82f0318b9346ap+4; 0x1.770fc0823baf0p+4; 0x1.555a698859d63p+4; 0x1.523c80ef7ea88p+4; 0x1.8e3f0040979fcp+4; 0x1.bc1cd7716b7d2p+4; 0x1.6aaad9274e22ap+4; 0x1.4dac037931444p+4; 0x1.c7fe63e8dda49p+4; 0x1.b8873dc70aebfp+4; 0x1.972dbecfb407ep+4; 0x1.afcc55e438236p+4; 0x1.f157a2cecc815p+4; 0x1.e7502cee75940p+4; 0x1.dc37bff54df55p+4].
(* test/data/cs-adx.csv '-DI14' *)
Definition d036 : list float := [nan; nan; nan; nan; nan; nan; nan; nan; nan; nan; nan; nan; nan; nan; 0x1.035b4289118c2p+5; 0x1.0f90ee2f1d240p+5; 0x1.236c378903496p+5; 0x1.0f19230ef8c14p+5; 0x1.e04194f5c5ea6p+4; 0x1.c7781db36f2dbp+4; 0x1.9ddf01b866e44p+4; 0x1.8e6e675147f13p+4; 0x1.77839a1e23d77p+4; 0x1.5a710f875c803p+4; 0x1.3ea47205001a0p+4; 0x1.2efb1b94b0fc9p+4; 0x1.4a2f548161947p+4; 0x1.220363cd2ef26p+4; 0x1.15d02b0b46852p+4; 0x1.4330e2a652e58p+4; 0x1.2bd3487c7093ep+4; 0x1.1cefa78d78232p+4; 0x1.7f121053345a8p+4; 0x1.66fd3e69c81abp+4; 0x1.816e69d586afbp+4; 0x1.5a26862bfe8b9p+4; 0x1.4aaad32d391e3p+4; 0x1.4eb7a31f54592p+4; 0x1.67941b907f3eap+4; 0x1.5485e85c754bep+4; 0x1.3a751951e09d6p+4; 0x1.2dc95c4f8c2f5p+4; 0x1.3f48ed2963a6ap+4; 0x1.63ea0e5be355ap+4; 0x1.47791f3b2eaa3p+4; 0x1.389614df8b157p+4; 0x1.8640ff1e58b0ap+4; 0x1.71dce7cd03537p+4; 0x1.5119213935abbp+4; 0x1.3fb53ef6b5d46p+4; 0x1.29d0e68788f5ep+4; 0x1.18b8fcbba7e16p+4; 0x1.0be604fcbf02ep+4; 0x1.ef0f7a5be6b0ap+3; 0x1.c8160d887ebf2p+3; 0x1.bbcf623de2b9ap+3; 0x1.a08f7c0965da5p+3; 0x1.90bdc08a9f2adp+3; 0x1.71c73944c52bfp+3; 0x1.e1e618ce2d1f2p+3; 0x1.bf49528f190d1p+3; 0x1.cdaeab7995ee1p+3; 0x1.d34453162789bp+3; 0x1.1fdc087442c80p+4; 0x1.0fbc9ad5d9bbdp+4; 0x1.023a47df92a23p+4; 0x1.dd0c4ef88b978p+3; 0x1.bd4a56656762ep+3; 0x1.9d0d431451c6ap+3; 0x1.31d701bf1ce0ep+4; 0x1.20fb54ba6c780p+4; 0x1.f646cca2db61cp+3; 0x1.d7a4b5f79e31bp+3; 0x1.efa8cafa64b59p+3; 0x1.d1cb5d2b5441ap+3; 0x1.a823f49c1eaf1p+3; 0x1.90b72961f9196p+3; 0x1.afd3f83a38e0fp+3; 0x1.9ea1ce51314b0p+3; 0x1.869592387c485p+3; 0x1.be52707abc5ecp+3; 0x1.aa32d7f950b95p+3; 0x1.f50be90c9e73fp+3; 0x1.dee9e0a41a262p+3; 0x1.33caef7cfafd6p+4; 0x1.6ff4d5e57a42cp+4; 0x1.621f250ead41fp+4; 0x1.53ac2d857448ap+4; 0x1.43f533028bcb8p+4; 0x1.31c84c9febc33p+4; 0x1.955b47ef82da4p+4; 0x1.a87bb242ddcb2p+4; 0x1.85c5eac5dc17cp+4; 0x1.5f5d5270e61c3p+4; 0x1.507c94f69ca9fp+4; 0x1.3c4c93a711516p+4; 0x1.2aefa899e79d3p+4; 0x1.1d4e320cc2862p+4; 0x1.8efe1162fed2ep+4; 0x1.c1c3e4910eb0ap+4; 0x1.e9196bac2084ep+4; 0x1.eeb4db742f7ccp+4; 0x1.dc909b58b67a8p+4; 0x1.c00ed1541b0a4p+4; 0x1.8e7b1abdf167bp+4; 0x1.7e9af9b639e35p+4; 0x1.51a856b0e6bd4p+4; 0x1.3a053eb399f5ep+4; 0x1.2d64c11508a5cp+4; 0x1.1fb209b80fa66p+4; 0x1.0f63c1f6aff52p+4; 0x1.fe76f66c0287ap+3; 0x1.c5611a61ab15cp+3; 0x1.a9dde0bb971a6p+3; 0x1.91d3dd2c96610p+3; 0x1.760a335fa8dd0p+3; 0x1.6334b3d153445p+3; 0x1.43d2ac753e708p+3; 0x1.56dd272283b88p+3; 0x1.402ae1c079d83p+3; 0x1.31309d8c6d613p+3; 0x1.8822782fbc863p+3; 0x1.b7f041461b6d4p+3; 0x1.96982b6ff052ep+3; 0x1.d71e6c3181825p+3; 0x1.1120fba8826abp+4; 0x1.e6446016c10cap+3; 0x1.ca9dca4b124d1p+3; 0x1.0f4776b716822p+4; 0x1.74ade6ddf00acp+4; 0x1.5c8f1fa83bf3dp+4; 0x1.3e47b2cc70868p+4; 0x1.2990a47819ed1p+4; 0x1.16a4c9c90c4dfp+4; 0x1.08e52d9c1a7d6p+4; 0x1.f4e858aeedbebp+3; 0x1.09d5c52e72da1p+4; 0x1.393fbeac78997p+4; 0x1.1b3c6540cc78fp+4; 0x1.45debbfd71b04p+4; 0x1.7a6bacf7446fap+4; 0x1.7d5efccac159dp+4; 0x1.680db75dcfbefp+4; 0x1.48c0d14bb78e7p+4; 0x1.3a8a29ba0dad6p+4; 0x1.23e30fea58cedp+4; 0x1.13b3ad76c6300p+4; 0x1.07ce56a528431p+4; 0x1.f2a7e15af94aep+3; 0x1.dd39188532039p+3; 0x1.b934d66bb1ffcp+3; 0x1.a25ebf3d98110p+3; 0x1.8e21c333c6d6fp+3; 0x1.74904160f35fep+3; 0x1.62d4f7dec94e9p+3; 0x1.415cbf89176b5p+3; 0x1.fe215b2efabf5p+3; 0x1.133a20578e5c5p+4; 0x1.eb772cf2a751fp+3; 0x1.cae96e22f34a1p+3; 0x1.16d7b08b4da68p+4; 0x1.54d913b2646bcp+4; 0x1.707093e6d2319p+4; 0x1.5a7bf46d24c69p+4; 0x1.39a49ccd2ac0ap+4; 0x1.2f512a4477285p+4; 0x1.1d124c4db66c4p+4; 0x1.1bc9878316a05p+4; 0x1.0953ee4415d98p+4; 0x1.fbbecb16ea275p+3; 0x1.d30163e2fe678p+3; 0x1.c327c4d587867p+3; 0x1.1b86138fffbcep+4; 0x1.0510bba4865cap+4; 0x1.ea28745d9fee4p+3; 0x1.bf0ed3d859c8dp+3; 0x1.fe294284090eap+3; 0x1.d510e2dc02cabp+3; 0x1.f3c46ce1aaaa6p+3; 0x1.48b7dd6c57413p+4; 0x1.b58e66e5e826cp+4; 0x1.922ebf9b8be22p+4; 0x1.c1eb7bc9a4fa2p+4; 0x1.c4b7952d234ecp+4; 0x1.afadbb74b5b48p+4; 0x1.95dc4ced189cbp+4; 0x1.6caa6b78f4de6p+4; 0x1.58999c1dd8582p+4; 0x1.3a85cdba32965p+4; 0x1.2f04ed6fda837p+4; 0x1.1ee6829b50530p+4; 0x1.16e4fe36d2242p+4; 0x1.082d5e57a42bcp+4; 0x1.ed3045ad893aap+3; 0x1.da951895f8fb3p+3; 0x1.01f68b7797e71p+4; 0x1.5c78ec4538187p+4; 0x1.5a41917fefa47p+4; 0x1.375432a213bbap+4; 0x1.3fae45c358afcp+4; 0x1.3759578a2a90dp+4; 0x1.c8ba46b84b359p+4; 0x1.afb582e953ec1p+4; 0x1.8da9b7bf1e8e6p+4; 0x1.77aca5e5d8369p+4; 0x1.6fbbae46cfc83p+4; 0x1.46bde141ced77p+4; 0x1.365fd1f7aef8ap+4; 0x1.6fd99608eb611p+4; 0x1.50d171fd735dcp+4; 0x1.401a0407cc7d2p+4; 0x1.5c1fbc9399a56p+4; 0x1.4a0eba7836728p+4; 0x1.3787e29d18aa2p+4; 0x1.28d2887de8633p+4; 0x1.762de67290405p+4; 0x1.56b1dcf1ddfe5p+4; 0x1.3ca18a43bb40bp+4; 0x1.305b0c7b38858p+4; 0x1.231938b629f32p+4; 0x1.13fd5b3fc1b6fp+4; 0x1.076013d16e1c4p+4; 0x1.fcaa38b8ae31dp+3; 0x1.f4f894d1b3bc6p+3; 0x1.165fd750b44d8p+4; 0x1.f6810f2968af1p+3; 0x1.07955d447eb51p+4; 0x1.09f9925d6535ep+4; 0x1.1e9a2a9e393b9p+4; 0x1.060de459b14c4p+4; 0x1.e67b3f3b7f321p+3; 0x1.5578e269ed03ap+4; 0x1.2f691f7e4a88cp+4; 0x1.237bded35f8e0p+4; 0x1.74d497d2193cep+4; 0x1.50f043e5321e6p+4; 0x1.8291450191d07p+4; 0x1.6d1c43cdb52a2p+4; 0x1.00d435b9f6307p+5; 0x1.e86e5fa9b3c31p+4; 0x1.bf0d08c74ede9p+4; 0x1.a00bb971a6359p+4; 0x1.d184b9884c6a4p+4; 0x1.f9d93c7c8810ep+4; 0x1.e351511093cc0p+4; 0x1.c24b69a5b6079p+4; 0x1.ab3e09500ada5p+4; 0x1.ecce01655acdbp+4; 0x1.061f5bf345dd6p+5; 0x1.f2ae3c536d656p+4; 0x1.cd04eccecad3dp+4; 0x1.b6c806290eed0p+4; 0x1.8e36819c4cd24p+4; 0x1.744b97fe8ee6cp+4; 0x1.6013685ce0abap+4; 0x1.5593eace3f939p+4; 0x1.4566493fe4f26p+4; 0x1.372ebcabed593p+4; 0x1.31f49a8c07e0ap+4; 0x1.7d8d11962a795p+4; 0x1.64a3bad553841p+4; 0x1.94d48ccf86bb7p+4; 0x1.816797d9a5f92p+4; 0x1.6431a254533e7p+4; 0x1.537dff2437edbp+4; 0x1.4872d8b5385b9p+4; 0x1.3eb294573a798p+4; 0x1.22c8dab4ecdc3p+4; 0x1.1c014544adaf0p+4; 0x1.0692981d98974p+4; 0x1.eed3712bbc467p+3; 0x1.d8a47595ae529p+3; 0x1.bf87d97db5378p+3; 0x1.f1560f6badce0p+3; 0x1.d91851d0ad2c2p+3; 0x1.c21692486c806p+3; 0x1.b0ede97d06bbep+3; 0x1.ee9ae6a0b3695p+3; 0x1.b7dd0fa58f712p+3; 0x1.99c36a4d7bb3dp+3; 0x1.8723e334175ecp+3; 0x1.63904eccecad4p+3; 0x1.8a9da88773267p+3; 0x1.75cf18a1b7755p+3; 0x1.5d7d19d1625dcp+3; 0x1.4b7bed81783aap+3; 0x1.9818421625057p+3; 0x1.79aeacf165329p+3; 0x1.60ca5cb0043f3p+3; 0x1.52331c8cfe80ap+3; 0x1.6eb5c4ddeb024p+3; 0x1.5aa2750a6e181p+3; 0x1.4e4938c395ec6p+3; 0x1.37c063d30e2f7p+3; 0x1.1e4b2c188cbecp+3; 0x1.11774da9d6fe8p+3; 0x1.05a5f9a9a4a9ap+4; 0x1.29c50acc0bdcbp+4; 0x1.18509203a322bp+4; 0x1.072670c7e9384p+4; 0x1.3eecf5cca0572p+4; 0x1.2be7b07de1ad3p+4; 0x1.1e7c69072a96bp+4; 0x1.c2d0bae89eba7p+4; 0x1.cb9dcab672177p+4; 0x1.99ecb153ca827p+4; 0x1.b0509fdafc3a8p+4; 0x1.865385688a2d1p+4; 0x1.05f1ea35935fcp+5; 0x1.119dcd62f4c1ep+5; 0x1.c4cf1b83ea04fp+5; 0x1.86120fe7d4901p+5; 0x1.55a8839f5c514p+5; 0x1.40566a7d4c5c0p+5; 0x1.303110bc0fe62p+5; 0x1.260b6d9458114p+5; 0x1.48ff7022a7cabp+5; 0x1.41055417af493p+5; 0x1.295d84ee10ea3p+5; 0x1.3528c0e969bb8p+5; 0x1.4ed03c3d9df04p+5; 0x1.4915e1f7007d0p+5; 0x1.3d1cd87ddaf73p+5; 0x1.5eec3dfbe4119p+5; 0x1.444a3cf7d8135p+5; 0x1.2815460aa64c3p+5; 0x1.1ba9def69afc7p+5; 0x1.0a96b76709fa5p+5; 0x1.f3e6714e20f54p+4; 0x1.e0860b97e3b6fp+4; 0x1.0b3875fdb31eap+5; 0x1.1889d02daa5d3p+5; 0x1.26d2c31b73231p+5; 0x1.12901c5d2dd88p+5; 0x1.fcfc86cebbba5p+4; 0x1.e1d969c8f1760p+4; 0x1.ca5d3cf1f8d64p+4; 0x1.a7214544adaf0p+4; 0x1.96c3720fe7d49p+4; 0x1.88f35e66bda44p+4; 0x1.7c8ed047ab904p+4; 0x1.9225df57e9cbep+4; 0x1.8af91c8140068p+4; 0x1.a76a04b648261p+4; 0x1.c4041248d7e02p+4; 0x1.c97a4052d666bp+4; 0x1.c16754d89f68ep+4; 0x1.1e16f6a1b26cdp+5; 0x1.21585fc2de368p+5; 0x1.38633142982b0p+5; 0x1.290d80bc53020p+5; 0x1.12cf2a67b296cp+5; 0x1.f2f6d330941c8p+4; 0x1.db880f634a523p+4; 0x1.c95bcacc418c9p+4; 0x1.b6a5ce761a389p+4; 0x1.9e9cabb7a94f2p+4; 0x1.8cd0e61c292b7p+4; 0x1.94a4649906ccap+4; 0x1.beb0781d480f6p+4; 0x1.bee93c396c326p+4; 0x1.912bc0427acedp+4; 0x1.6e8a9102f222cp+4; 0x1.4c11c7c378903p+4; 0x1.3aee8f0efc1c4p+4; 0x1.2e1b1605fbc28p+4; 0x1.224ca1b41a4e6p+4; 0x1.3ba25ad38b2cfp+4; 0x1.6cc514f7dec95p+4; 0x1.66612d0bd1c56p+4; 0x1.4bc0a1b0bf501p+4; 0x1.3ffe7afa72218p+4; 0x1.327a340e2485fp+4; 0x1.27aaacb1a4526p+4; 0x1.5356f163850a9p+4; 0x1.46874ec3b271dp+4; 0x1.774b45ae5ffa4p+4; 0x1.d802674decf2ep+4; 0x1.0baec728481dap+5; 0x1.039b5f0e83508p+5; 0x1.0dc4638c97529p+5; 0x1.ee7b00515e976p+4; 0x1.d03c63934d4f4p+4; 0x1.f3f4face67d78p+4; 0x1.e14ee92197298p+4; 0x1.bc6b1f4da3210p+4; 0x1.0f0fdb679a431p+5; 0x1.059060425ff6ep+5; 0x1.e6cc6fca9336bp+4; 0x1.fce62e9da23cdp+4; 0x1.e12f94fe29663p+4; 0x1.feedd98cceb00p+4; 0x1.c301bc62f23dap+4; 0x1.ae63b8008cedcp+4; 0x1.92f90e8f0efc2p+4; 0x1.84c38d6e122c5p+4; 0x1.6b379ed2be7e5p+4; 0x1.5c6c2755af5f0p+4; 0x1.5936d4a863610p+4; 0x1.40576394240edp+4; 0x1.2d80b6df24be2p+4; 0x1.1bd1966029358p+4; 0x1.0f7360eafc62cp+4; 0x1.04962896213f1p+4; 0x1.d85cdf33d79dep+3; 0x1.bd743a9a2fc19p+3; 0x1.e06dea1e166b8p+3; 0x1.b78f341ab9bfbp+3; 0x1.8b8e49037f108p+3; 0x1.7b82c541be107p+3; 0x1.243bf08beeb63p+4; 0x1.17b74ff865d7dp+4; 0x1.324f4608f8cd0p+4; 0x1.1bd9ca0b516cep+4; 0x1.5e72a5035a279p+4; 0x1.35357bad1f886p+4; 0x1.2bb9e1d8cd8c1p+4; 0x1.1c8bae6f13b41p+4; 0x1.07849fa1f156fp+4; 0x1.fa9f237c060aep+3; 0x1.1d218372e6a77p+4; 0x1.0ba0eef870bf8p+4; 0x1.10933bcc5ee8cp+4; 0x1.e91cb0dafebebp+3; 0x1.d4ecb5350092dp+3; 0x1.5eccf32d89a60p+4; 0x1.455be47cecbabp+4; 0x1.28e8ef92ca728p+4; 0x1.1b01e3b5469e5p+4; 0x1.0a7d66e363e80p+4; 0x1.3b442111c87f6p+4; 0x1.293b3f20a73f7p+4; 0x1.16d8f6f742c22p+4; 0x1.0d6d637af99b6p+4; 0x1.ef8103a09e70ap+3; 0x1.cad914a3fbf33p+3; 0x1.f20ba6fd2f6b2p+3; 0x1.c70ece2ecc9c2p+3; 0x1.b875ca1c18648p+3; 0x1.bb3514ea72d00p+3; 0x1.e670fe6fdd07bp+3; 0x1.e94267eefca28p+3; 0x1.22d6902f8d8c4p+4; 0x1.5495525cc4263p+4; 0x1.40ad652878c51p+4; 0x1.e9e7fb41545e2p+4; 0x1.d1d673c4f3ba7p+4; 0x1.9f86d67e26769p+4; 0x1.8e05544d5f2e6p+4; 0x1.726302b40f66ap+4; 0x1.861dd2432e530p+4; 0x1.5dd66a0480984p+4; 0x1.4f4dbbc53d8c5p+4; 0x1.89658255b035cp+4; 0x1.8ac85ce0aba6ep+4; 0x1.5c7bd4dd3c86ap+4; 0x1.49b50abe9fe36p+4; 0x1.3caac611c7a8ap+4; 0x1.3499ef0f16f44p+4; 0x1.201cb5fe542e5p+4; 0x1.277cd1fd8e35cp+4; 0x1.190533e6b759ap+4; 0x1.0bc4293f946a8p+4; 0x1.fd1c8c5d70f46p+3; 0x1.f578fc6b20099p+3; 0x1.0b2d0b813d824p+4; 0x1.f37307ffa8c23p+3; 0x1.e41ff964db4bfp+3; 0x1.0f1b985c82b7dp+4; 0x1.048d0deaa44e3p+4; 0x1.fe15307e4d0d0p+3; 0x1.1b3050e5cba15p+4; 0x1.555cf80dc3372p+4; 0x1.44d8e64b23140p+4; 0x1.3aa7e9531550dp+4; 0x1.58513638a1314p+4; 0x1.8fde9f2778141p+4; 0x1.5044b8e73cbaap+4; 0x1.3b4a8e63db71bp+4; 0x1.1fe6e13031203p+4; 0x1.155f36918c84ep+4; 0x1.4505b8561d430p+4; 0x1.2c454e88fa0f2p+4; 0x1.1c56100cbd7dap+4; 0x1.0d51f2c1531c0p+4; 0x1.019983947496bp+4; 0x1.dc25cc0cb36cbp+3; 0x1.adc98e1e3b547p+3; 0x1.bf4b08065ebedp+3; 0x1.4531368929091p+4; 0x1.25146b26bf877p+4; 0x1.0abd4c76d117bp+4; 0x1.f6504d551d68cp+3; 0x1.d6e8f1fc313e6p+3; 0x1.b9bb069bfb73bp+3; 0x1.a77b726725a90p+4; 0x1.92ea41a261bf3p+4; 0x1.63f2ebe596c83p+4; 0x1.57e068702be20p+4; 0x1.85dd5926e2c2ep+4; 0x1.70bd64ca84f3fp+4; 0x1.59a9086cb60bcp+4; 0x1.46c7c43477d6dp+4; 0x1.3967ea9534b01p+4].
(* test/data/cs-macd.csv 'Close' *)
Definition d037 : list float := [0x1.e333333333333p+4; 0x1.e47ae147ae148p+4; 0x1.e733333333333p+4; 0x1.d59999999999ap+4; 0x1.d59999999999ap+4; 0x1.d4a3d70a3d70ap+4; 0x1.cd47ae147ae14p+4; 0x1.cbae147ae147bp+4; 0x1.cab851eb851ecp+4; 0x1.cd9999999999ap+4; 0x1.ca3d70a3d70a4p+4; 0x1.bae147ae147aep+4; 0x1.b35c28f5c28f6p+4; 0x1.adeb851eb851fp+4; 0x1.b68f5c28f5c29p+4; 0x1.af0a3d70a3d71p+4; 0x1.a851eb851eb85p+4; 0x1.a851eb851eb85p+4; 0x1.b170a3d70a3d7p+4; 0x1.bb0a3d70a3d71p+4; 0x1.c733333333333p+4; 0x1.c87ae147ae148p+4; 0x1.cab851eb851ecp+4; 0x1.d028f5c28f5c3p+4; 0x1.ddeb851eb851fp+4; 0x1.dcccccccccccdp+4; 0x1.dc00000000000p+4; 0x1.ea66666666666p+4; 0x1.e99999999999ap+4; 0x1.ec28f5c28f5c3p+4; 0x1.f2b851eb851ecp+4; 0x1.ee3d70a3d70a4p+4; 0x1.e0a3d70a3d70ap+4; 0x1.ea8f5c28f5c29p+4; 0x1.e99999999999ap+4; 0x1.ff851eb851eb8p+4; 0x1.00ccccccccccdp+5; 0x1.003d70a3d70a4p+5; 0x1.fa147ae147ae1p+4; 0x1.fd9999999999ap+4; 0x1.05ae147ae147bp+5; 0x1.06147ae147ae1p+5; 0x1.04a3d70a3d70ap+5; 0x1.010a3d70a3d71p+5; 0x1.08f5c28f5c28fp+5; 0x1.09851eb851eb8p+5; 0x1.0428f5c28f5c3p+5; 0x1.03851eb851eb8p+5; 0x1.09c28f5c28f5cp+5; 0x1.06a3d70a3d70ap+5; 0x1.0cf5c28f5c28fp+5; 0x1.0e00000000000p+5; 0x1.0cccccccccccdp+5; 0x1.10a3d70a3d70ap+5; 0x1.14a3d70a3d70ap+5; 0x1.11c28f5c28f5cp+5; 0x1.1628f5c28f5c3p+5; 0x1.15eb851eb851fp+5; 0x1.18147ae147ae1p+5; 0x1.17851eb851eb8p+5; 0x1.135c28f5c28f6p+5; 0x1.1333333333333p+5; 0x1.1147ae147ae14p+5; 0x1.0ab851eb851ecp+5; 0x1.0b1eb851eb852p+5; 0x1.0c147ae147ae1p+5; 0x1.0fae147ae147bp+5; 0x1.135c28f5c28f6p+5; 0x1.15c28f5c28f5cp+5; 0x1.0f851eb851eb8p+5; 0x1.0d47ae147ae14p+5; 0x1.14147ae147ae1p+5; 0x1.16f5c28f5c28fp+5; 0x1.1600000000000p+5; 0x1.195c28f5c28f6p+5; 0x1.2147ae147ae14p+5; 0x1.239999999999ap+5; 0x1.203d70a3d70a4p+5; 0x1.239999999999ap+5; 0x1.25eb851eb851fp+5; 0x1.24e147ae147aep+5; 0x1.26a3d70a3d70ap+5; 0x1.26b851eb851ecp+5; 0x1.271eb851eb852p+5; 0x1.230a3d70a3d71p+5; 0x1.1feb851eb851fp+5; 0x1.1ee147ae147aep+5; 0x1.1f0a3d70a3d71p+5; 0x1.1dd70a3d70a3dp+5; 0x1.208f5c28f5c29p+5; 0x1.1cccccccccccdp+5; 0x1.17d70a3d70a3dp+5; 0x1.1ca3d70a3d70ap+5; 0x1.208f5c28f5c29p+5; 0x1.21ae147ae147bp+5; 0x1.23ae147ae147bp+5; 0x1.23851eb851eb8p+5; 0x1.2451eb851eb85p+5; 0x1.1e7ae147ae148p+5; 0x1.1a147ae147ae1p+5; 0x1.19ae147ae147bp+5; 0x1.14b851eb851ecp+5; 0x1.15d70a3d70a3dp+5; 0x1.16e147ae147aep+5; 0x1.1a7ae147ae148p+5; 0x1.1c00000000000p+5; 0x1.250a3d70a3d71p+5; 0x1.291eb851eb852p+5; 0x1.2a28f5c28f5c3p+5; 0x1.2d9999999999ap+5; 0x1.2ef5c28f5c28fp+5; 0x1.330a3d70a3d71p+5; 0x1.395c28f5c28f6p+5; 0x1.3866666666666p+5; 0x1.38b851eb851ecp+5; 0x1.3a28f5c28f5c3p+5; 0x1.38e147ae147aep+5; 0x1.3ee147ae147aep+5; 0x1.3c3d70a3d70a4p+5; 0x1.3deb851eb851fp+5; 0x1.3ef5c28f5c28fp+5; 0x1.3e8f5c28f5c29p+5; 0x1.3ce147ae147aep+5; 0x1.3e00000000000p+5].
(* test/data/cs-macd.csv 'MACD_line' *)
Definition d038 : list float := [nan; 0x1.a23c45e6c24c2p-8; 0x1.97796679d8c85p-6; (-0x1.8ec36f9691d88p-5); (-0x1.b121c06babcfcp-4); (-0x1.3b78179fcc112p-3); (-0x1.d0839295452b7p-3); (-0x1.282a544d9b4f9p-2); (-0x1.5bc3192e75147p-2); (-0x1.71852d1d66e59p-2); (-0x1.8f82a394e2533p-2); (-0x1.f0df85fbc6cf2p-2); (-0x1.2ef1442497f0fp-1); (-0x1.6414b3d0ae571p-1); (-0x1.7399a9f97cf2ep-1); (-0x1.8eb88d041ce0bp-1); (-0x1.b094630342703p-1); (-0x1.c62d6d7756ed8p-1); (-0x1.baa46f3673ce6p-1); (-0x1.940df2e3b6131p-1); (-0x1.522d241dbe175p-1); (-0x1.1770e9cb55ec5p-1); (-0x1.c10aaaafbfc16p-2); (-0x1.4a17f572bbe7dp-2); (-0x1.45c6de711b128p-3); (-0x1.1dfdf1bee6de8p-5); 0x1.e17a516df1763p-5; 0x1.a05b6bbf1e6c0p-3; 0x1.3dabe1167135cp-2; 0x1.9ce7f4104ab56p-2; 0x1.02272fe487193p-1; 0x1.1c47e01f8229dp-1; 0x1.0acb716a10f00p-1; 0x1.13609320803e8p-1; 0x1.14833dc2c6483p-1; 0x1.4a34d7d69ebb5p-1; 0x1.75d21e041cd14p-1; 0x1.90df59acc499ap-1; 0x1.9129405ad7f5ap-1; 0x1.95cd1b63492abp-1; 0x1.b7eff2ff81f9fp-1; 0x1.cfb5f3727717ap-1; 0x1.d5b34e783d666p-1; 0x1.c2a935ed17881p-1; 0x1.d70b0d8b6a123p-1; 0x1.e480ce7b05816p-1; 0x1.ce298c5508512p-1; 0x1.b41fdfd2e59ffp-1; 0x1.ba9cbb1d5e1b0p-1; 0x1.aab8e8a05a2b8p-1; 0x1.b9ad1b9b55cb2p-1; 0x1.c5ab233324b46p-1; 0x1.c3c48689f5cc4p-1; 0x1.d0bc1fea20ddbp-1; 0x1.ea0515e52acdcp-1; 0x1.e98acd0e6b46bp-1; 0x1.fa0d8d21e0265p-1; 0x1.ffff1542891bep-1; 0x1.04ec48b572e07p+0; 0x1.0460e0c4c027cp+0; 0x1.ecbb01f4fce0ap-1; 0x1.d0572ab357bccp-1; 0x1.ab00eb7022933p-1; 0x1.6764b4eac0c42p-1; 0x1.305e72d72c041p-1; 0x1.06b0f40a45acap-1; 0x1.ead8e1c612a54p-2; 0x1.efc594c347c83p-2; 0x1.033e3e2f33cbfp-1; 0x1.d2a8850a6489ap-2; 0x1.8ddcaca185b79p-2; 0x1.98dc8313bf514p-2; 0x1.ba3a1648b923cp-2; 0x1.c586a5ee5e0e7p-2; 0x1.eb84bca5a8bfbp-2; 0x1.2a46ccde8e97fp-1; 0x1.5bde354e17448p-1; 0x1.6d9a6b01a9eefp-1; 0x1.887c6e75e0742p-1; 0x1.a4eb7fb1ba427p-1; 0x1.b1173943cdc81p-1; 0x1.bead1fb6be3d7p-1; 0x1.c4a368ce963dbp-1; 0x1.c6317e749c817p-1; 0x1.ad67d3dff7b31p-1; 0x1.85299e0e3c669p-1; 0x1.5be37c3d728f3p-1; 0x1.38675f1bdaac2p-1; 0x1.12ea67b9e3ec1p-1; 0x1.004c61f303252p-1; 0x1.b730aaba1fc36p-2; 0x1.4606ee267bcf3p-2; 0x1.1aa9c30e5b583p-2; 0x1.1d7e65f2b44e3p-2; 0x1.27e4e34c9e9ccp-2; 0x1.41179785ca023p-2; 0x1.4f8a944f1f257p-2; 0x1.5f34ec2387cd2p-2; 0x1.2bd8bb7eacea7p-2; 0x1.a68667fd59207p-3; 0x1.0ebbf92d0c847p-3; 0x1.7b7733e7b0cd4p-6; (-0x1.a4be89ab76792p-5); (-0x1.94a50c40348b7p-4); (-0x1.9534914d34013p-4); (-0x1.52f1ed71cbb2ep-4); 0x1.5837b96ee7e56p-6; 0x1.2458793dd97f6p-3; 0x1.f99664336fe9dp-3; 0x1.7092b3b0cde6fp-2; 0x1.d4f8456fa2849p-2; 0x1.23f8d5b3331a5p-1; 0x1.6df35e8014c29p-1; 0x1.9ed6eddc12c54p-1; 0x1.c20c8efcda1c2p-1; 0x1.dfdb9d61599f2p-1; 0x1.eb357e56bc073p-1; 0x1.06918687907a0p+0; 0x1.0a20c12f79841p+0; 0x1.0e2c270b98cbap+0; 0x1.10eacc80e65e3p+0; 0x1.0eefb487a061ap+0; 0x1.06021e1afbb78p+0; 0x1.fdc5e63ba43f1p-1].
(* test/data/cs-macd.csv 'MACD_signal' *)
Definition d039 : list float := [nan; nan; (-0x1.087cdccc289ffp-3); (-0x1.cf0e8606930cdp-4); (-0x1.c9125e86b0fa3p-4); (-0x1.ebd8550f52b8ap-4); (-0x1.21a40c24aba4fp-3); (-0x1.5e2dc5087deafp-3); (-0x1.a33f747fc6c42p-3); (-0x1.e334d5a68e6a5p-3); (-0x1.112f42f9ffd4cp-2); (-0x1.3dec1d2cde1aep-2); (-0x1.7783cc3230197p-2); (-0x1.bad81e7ca74c6p-2); (-0x1.f6ea5c60c641dp-2); (-0x1.18e90df455141p-1); (-0x1.373e855de3bb2p-1); (-0x1.53d4b3c9612b9p-1); (-0x1.6864a61290e0cp-1); (-0x1.71201bd5feb7ap-1); (-0x1.6aef83e4842c2p-1); (-0x1.5a3c98455d619p-1); (-0x1.41e4be1661d27p-1); (-0x1.2286309d610c5p-1); (-0x1.f16a973aa9252p-2); (-0x1.9515389fa462bp-2); (-0x1.380784dd08aa0p-2); (-0x1.9ff9bf099ad26p-3); (-0x1.9b6c7d92e4040p-4); 0x1.2f91fbfba792ep-12; 0x1.9dfe5b06ae3c6p-4; 0x1.8905a47f87bcdp-3; 0x1.07ed3bf709decp-2; 0x1.414ad139b7ea6p-2; 0x1.6fa38ce27c0b9p-2; 0x1.aa3193d7d5edcp-2; 0x1.ea7bb57a6d25fp-2; 0x1.145e2753862dep-1; 0x1.2d5392bb6355dp-1; 0x1.4238ae1056e1dp-1; 0x1.59c3bbd999ebap-1; 0x1.715a93c52555dp-1; 0x1.856c52b61bb58p-1; 0x1.91abb35a5c834p-1; 0x1.9f8b923124ce0p-1; 0x1.ad5637d9b0ecep-1; 0x1.b3e6e258c2675p-1; 0x1.b3f2483d78b4ep-1; 0x1.b547926a1434bp-1; 0x1.b32b0a0eb4944p-1; 0x1.b47840c4c6620p-1; 0x1.b7e8d473c2ecep-1; 0x1.ba47f812250f9p-1; 0x1.bec599a365dc6p-1; 0x1.c76be5b08d3fep-1; 0x1.ce3ee0c327464p-1; 0x1.d701d009a435ep-1; 0x1.df34777bc38d1p-1; 0x1.e7bbafddc2823p-1; 0x1.ee5680334ede7p-1; 0x1.ee0433c071abbp-1; 0x1.e814cb8a9faf2p-1; 0x1.dbdd9eb82eb38p-1; 0x1.c4923cc2a3e01p-1; 0x1.a6ee479333f14p-1; 0x1.86e203ab3044fp-1; 0x1.69ca7fe9badc4p-1; 0x1.53028ecdff200p-1; 0x1.430e7eae3cdc0p-1; 0x1.311c72a68b7b9p-1; 0x1.1be006958f56ap-1; 0x1.0bfc78c66c33dp-1; 0x1.029c960c111d7p-1; 0x1.f87bde10cfad9p-2; 0x1.f5e40a93f335ap-2; 0x1.046960678505ap-1; 0x1.15e7249626366p-1; 0x1.277165de56372p-1; 0x1.3ada0130043e5p-1; 0x1.5010b416ee3a2p-1; 0x1.6378685296ff2p-1; 0x1.75b62699d20b9p-1; 0x1.857f33d842ce6p-1; 0x1.926fa92a37347p-1; 0x1.97d47e82480b9p-1; 0x1.9418b8045427cp-1; 0x1.88dadf42c7db1p-1; 0x1.78c3c5a191331p-1; 0x1.64651940601aep-1; 0x1.506027ca28c08p-1; 0x1.3904fdb4aef06p-1; 0x1.1b04af93e130dp-1; 0x1.fd5ca656e8db5p-2; 0x1.d0969975619fep-2; 0x1.aed97507dc1aep-2; 0x1.98e5e2538ef6cp-2; 0x1.8a3a05ec45668p-2; 0x1.819f672b35cd6p-2; 0x1.7077ab3adf57ap-2; 0x1.5106c6953b962p-2; 0x1.28b1d162a27b6p-2; 0x1.e432b0514d16ep-3; 0x1.6e52395dc4ac4p-3; 0x1.f92f59549d1fcp-4; 0x1.431b5d9bbff92p-4; 0x1.7d649d325b3f1p-5; 0x1.53894380735b0p-5; 0x1.f98163cbb70d2p-5; 0x1.946fe999cf85fp-4; 0x1.35343ee922579p-3; 0x1.b2f3814d8fae4p-3; 0x1.22c4ef99e7837p-2; 0x1.7afee57c2fcc3p-2; 0x1.d521e3882dbf1p-2; 0x1.15a9aacf4523dp-1; 0x1.3e1a0e8616095p-1; 0x1.60b924e30408ep-1; 0x1.8334b9b84b752p-1; 0x1.a037483fda978p-1; 0x1.b90aafd04a824p-1; 0x1.ce0011a64e3b8p-1; 0x1.ddf989881856ap-1; 0x1.e72ee077ab5b8p-1; 0x1.ebb37b38a2b74p-1].
(* test/data/cs-macd.csv 'MACD_diff' *)
Definition d040 : list float := [nan; nan; 0x1.3b6c099c13a50p-3; 0x1.07acce3d59e49p-4; 0x1.7f09e169f4406p-8; (-0x1.162fb45f2afb6p-5); (-0x1.5dbf0ce342d10p-4); (-0x1.e44dc72571684p-4); (-0x1.1446bddd2364cp-3); (-0x1.ffab09287ec18p-4); (-0x1.f94d826b89f9bp-4); (-0x1.65e6d19dd1689p-3); (-0x1.ccbd782dff90cp-3); (-0x1.0d514924b561cp-2); (-0x1.e091ef246747dp-3); (-0x1.d73dfc3f1f327p-3); (-0x1.e55776957ad47p-3); (-0x1.c962e6b7d707cp-3); (-0x1.48ff2492fb52ap-3); (-0x1.176eb8712a779p-4); 0x1.8c25fc64223d1p-5; 0x1.0b2eb9e81dd51p-3; 0x1.857da2fa07c6ep-3; 0x1.f5e8d78c9cc5ap-3; 0x1.4e8728021b9bep-2; 0x1.71557a68a36dep-2; 0x1.7436cf0a6ee2cp-2; 0x1.a02a95645c9f3p-2; 0x1.a487007b2a36cp-2; 0x1.9c9c0f922f9d2p-2; 0x1.9ccec90762a35p-2; 0x1.740cedff40753p-2; 0x1.0da9a6dd18015p-2; 0x1.caecaa0e91254p-3; 0x1.72c5dd4621098p-3; 0x1.d47037aacf11ap-3; 0x1.0128868c14ae9p-2; 0x1.f204c9618a130p-3; 0x1.8f56b67dd27f2p-3; 0x1.4e51b54bc9239p-3; 0x1.78b0dc97a0393p-3; 0x1.796d7eb547071p-3; 0x1.411bef0886c34p-3; 0x1.87ec149737fecp-4; 0x1.bbfbdad909591p-4; 0x1.b954b50aa4a3dp-4; 0x1.a42a9fcb3dd4cp-5; 0x1.6cbca61cbf453p-12; 0x1.554a2ca67e92ep-7; (-0x1.0e442dce0cc77p-6); 0x1.4d36b59e5ae81p-7; 0x1.b849d7d37bbeap-6; 0x1.2f91ceff96f67p-6; 0x1.1f686468f0647p-5; 0x1.14c981a0cce74p-4; 0x1.b4bec4b0207f3p-5; 0x1.185de8c12f97cp-4; 0x1.0654ee3a4bfe7p-4; 0x1.10e70c55dc251p-4; 0x1.a6b415387be87p-5; (-0x1.4931cb090a866p-9); (-0x1.7bda0d6d9fed5p-5); (-0x1.86e59a406102dp-4); (-0x1.74b61f5f8c6fap-3); (-0x1.da3f52f38f50bp-3); (-0x1.00621f41d530ap-2); (-0x1.d1783c1ac6268p-3); (-0x1.6c7f11b16cefdp-3); (-0x1.fe8203f84880cp-4); (-0x1.1f20c081f53f0p-3); (-0x1.53c6c11331eb4p-3); (-0x1.fc71b9dd85218p-4); (-0x1.2bfc573c44846p-4); (-0x1.97a9c1122d20fp-5); (-0x1.4be9bdd44d7dfp-7); 0x1.2eeb63b58ce25p-4; 0x1.17dc42dfc4386p-3; 0x1.18a4148d4edf4p-3; 0x1.3689b51770d75p-3; 0x1.536b2e6b30214p-3; 0x1.367b43c16b87cp-3; 0x1.23dbe473b0c77p-3; 0x1.f921a7b97ab21p-4; 0x1.9e0eaa532a687p-4; 0x1.593555e1d9b05p-5; (-0x1.dde33ec2f8268p-6); (-0x1.67bb182aaa5edp-4); (-0x1.01719a16da1bap-3); (-0x1.45eac619f0bb1p-3); (-0x1.404f175c966d9p-3); (-0x1.75b2a15e7c3aap-3); (-0x1.e004e2028d24dp-3); (-0x1.c565c68dab6a5p-3); (-0x1.663067055aa36p-3); (-0x1.0de923767afc3p-3); (-0x1.5f392b37c3be1p-4); (-0x1.d57b8ceeb1683p-5); (-0x1.1353d83530f26p-5); (-0x1.127bbef2298ccp-4); (-0x1.f70e4a5a3c17ap-4); (-0x1.42a7a99838724p-3); (-0x1.b4c3c9d34f1b4p-3); (-0x1.d781dbc742729p-3); (-0x1.c6ea32ca68d59p-3); (-0x1.6c27f77529e93p-3); (-0x1.08d21e05d49f3p-3); (-0x1.4edacd8f3f20ap-6); 0x1.4bf0409897283p-4; 0x1.2f5e6f65d83aep-3; 0x1.abf1287509da6p-3; 0x1.f6fd0991b55adp-3; 0x1.252cbbcc7eb12p-2; 0x1.60e7d785b1870p-2; 0x1.688bf82ff7cb7p-2; 0x1.58c5c85b29f09p-2; 0x1.43831db6872bap-2; 0x1.14f8b2e76ffc9p-2; 0x1.13dca6abf32fep-2; 0x1.d028e86ea352bp-3; 0x1.8d3679114d802p-3; 0x1.4f561d5ccbf7bp-3; 0x1.ff2efc32642d0p-4; 0x1.26aaddece13b8p-4; 0x1.2126b03438057p-5].
(* test/data/cs-cci.csv 'High' *)
Definition d041 : list float := [0x1.833886594af4fp+4; 0x1.8127525460aa6p+4; 0x1.80ad42c3c9eedp+4; 0x1.7df9096bb98c8p+4; 0x1.7acac083126e9p+4; 0x1.795c91d14e3bdp+4; 0x1.7cdbf487fcb92p+4; 0x1.7cdb8bac710cbp+4; 0x1.84cfaacd9e83ep+4; 0x1.826cf41f212d7p+4; 0x1.80d5cfaacd9e8p+4; 0x1.80fec56d5cfabp+4; 0x1.7e21ff2e48e8ap+4; 0x1.922b6ae7d566dp+4; 0x1.931f8a0902de0p+4; 0x1.910e560418937p+4; 0x1.93710cb295e9ep+4; 0x1.95fc504816f00p+4; 0x1.95d3c36113405p+4; 0x1.943c9eecbfb16p+4; 0x1.8d147ae147ae1p+4; 0x1.87096bb98c7e3p+4; 0x1.8a604189374bcp+4; 0x1.8d65fd8adab9fp+4; 0x1.8bf765fd8adacp+4; 0x1.8826809d49518p+4; 0x1.8adab9f559b3dp+4; 0x1.8ab1c432ca57ap+4; 0x1.7d7ef9db22d0ep+4; 0x1.84cfaacd9e83ep+4].
(* test/data/cs-cci.csv 'Low' *)
Definition d042 : list float := [0x1.7da786c22680ap+4; 0x1.7b9652bd3c361p+4; 0x1.7a50b0f27bb30p+4; 0x1.75dcc63f14120p+4; 0x1.774b5dcc63f14p+4; 0x1.72d77318fc505p+4; 0x1.7656d5cfaacdap+4; 0x1.790b0f27bb2ffp+4; 0x1.80d5cfaacd9e8p+4; 0x1.7c61e4f765fd9p+4; 0x1.79851eb851eb8p+4; 0x1.7d7ef9db22d0ep+4; 0x1.7a50b0f27bb30p+4; 0x1.7f161e4f765fep+4; 0x1.8bced916872b0p+4; 0x1.8c48e8a71de6ap+4; 0x1.8e5a1cac08312p+4; 0x1.8ed42c3c9eeccp+4; 0x1.8f4ea4a8c154dp+4; 0x1.8ed42c3c9eeccp+4; 0x1.836113404ea4bp+4; 0x1.836113404ea4bp+4; 0x1.86e0ded288ce7p+4; 0x1.87096bb98c7e3p+4; 0x1.833886594af4fp+4; 0x1.8404189374bc7p+4; 0x1.836113404ea4bp+4; 0x1.826cf41f212d7p+4; 0x1.7a28240b78034p+4; 0x1.7c395810624ddp+4].
(* test/data/cs-cci.csv 'Close' *)
Definition d043 : list float := [0x1.7e4a8c154c986p+4; 0x1.7f3eab367a0f9p+4; 0x1.7acac083126e9p+4; 0x1.7c8adab9f559bp+4; 0x1.77edfa43fe5c9p+4; 0x1.7525aee631f8ap+4; 0x1.7c10624dd2f1bp+4; 0x1.7cb367a0f9097p+4; 0x1.824467381d7dcp+4; 0x1.7d04ea4a8c155p+4; 0x1.7c8adab9f559bp+4; 0x1.7dd07c84b5dccp+4; 0x1.7b4538ef34d6ap+4; 0x1.8f4ea4a8c154dp+4; 0x1.8e089a0275254p+4; 0x1.8f62b6ae7d567p+4; 0x1.92ce075f6fd22p+4; 0x1.910e560418937p+4; 0x1.94652bd3c3611p+4; 0x1.8ff141205bc02p+4; 0x1.875aee631f8a1p+4; 0x1.847e28240b780p+4; 0x1.89faacd9e83e4p+4; 0x1.894dd2f1a9fbep+4; 0x1.886dc5d638866p+4; 0x1.859b3d07c84b6p+4; 0x1.8572474538ef3p+4; 0x1.83b295e9e1b09p+4; 0x1.7c395810624ddp+4; 0x1.833886594af4fp+4].
(* test/data/cs-cci.csv 'CCI' *)
Definition d044 : list float := [nan; nan; nan; nan; nan; nan; nan; nan; nan; nan; nan; nan; nan; nan; nan; nan; nan; nan; nan; 0x1.99428f5c28f5cp+6; 0x1.ebc6a7ef9db23p+4; 0x1.a34d6a161e4f7p+2; 0x1.0a5f06f694467p+5; 0x1.179c779a6b50bp+5; 0x1.bae219652bd3cp+3; (-0x1.57edfa43fe5c9p+3); (-0x1.72a0902de00d2p+3); (-0x1.d58e219652bd4p+4); (-0x1.02b61e4f765fep+7); (-0x1.24474538ef34dp+6)].
(* test/data/cs-vortex.csv 'High' *)
Definition d045 : list float := [0x1.5918f5c28f5c3p+10; 0x1.5820a3d70a3d7p+10; 0x1.5495c28f5c28fp+10; 0x1.51e1eb851eb85p+10; 0x1.4ffeb851eb852p+10; 0x1.54c851eb851ecp+10; 0x1.5b4c28f5c28f6p+10; 0x1.5bef5c28f5c29p+10; 0x1.5aca3d70a3d71p+10; 0x1.5a41eb851eb85p+10; 0x1.57c851eb851ecp+10; 0x1.5c8a3d70a3d71p+10; 0x1.5de851eb851ecp+10; 0x1.5fc8f5c28f5c3p+10; 0x1.5f08f5c28f5c3p+10; 0x1.5f7cccccccccdp+10; 0x1.5f7eb851eb852p+10; 0x1.5f77ae147ae14p+10; 0x1.6081eb851eb85p+10; 0x1.5feeb851eb852p+10; 0x1.625c28f5c28f6p+10; 0x1.62ad70a3d70a4p+10; 0x1.628851eb851ecp+10; 0x1.64ab851eb851fp+10; 0x1.6207ae147ae14p+10; 0x1.615f5c28f5c29p+10; 0x1.615d70a3d70a4p+10; 0x1.620ae147ae148p+10; 0x1.616851eb851ecp+10; 0x1.617cccccccccdp+10].
(* test/data/cs-vortex.csv 'Low' *)
Definition d046 : list float := [0x1.56cd70a3d70a4p+10; 0x1.548c28f5c28f6p+10; 0x1.4e63d70a3d70ap+10; 0x1.4c4f5c28f5c29p+10; 0x1.4ce0000000000p+10; 0x1.4e8ae147ae148p+10; 0x1.5403333333333p+10; 0x1.5957ae147ae14p+10; 0x1.58cae147ae148p+10; 0x1.5756666666666p+10; 0x1.52a999999999ap+10; 0x1.555cccccccccdp+10; 0x1.5bc28f5c28f5cp+10; 0x1.5c9d70a3d70a4p+10; 0x1.5d0851eb851ecp+10; 0x1.5db3333333333p+10; 0x1.5ce7ae147ae14p+10; 0x1.5d547ae147ae1p+10; 0x1.5e26666666666p+10; 0x1.5e751eb851eb8p+10; 0x1.5f0999999999ap+10; 0x1.61aae147ae148p+10; 0x1.6107ae147ae14p+10; 0x1.60b70a3d70a3dp+10; 0x1.5fb1eb851eb85p+10; 0x1.5e20000000000p+10; 0x1.5d828f5c28f5cp+10; 0x1.60470a3d70a3dp+10; 0x1.5f65c28f5c28fp+10; 0x1.5fa47ae147ae1p+10].
(* test/data/cs-vortex.csv 'Close' *)
Definition d047 : list float := [0x1.5820a3d70a3d7p+10; 0x1.54aa3d70a3d71p+10; 0x1.51a147ae147aep+10; 0x1.4e93d70a3d70ap+10; 0x1.4e78f5c28f5c3p+10; 0x1.540147ae147aep+10; 0x1.5a7e147ae147bp+10; 0x1.5a53333333333p+10; 0x1.58d47ae147ae1p+10; 0x1.57d47ae147ae1p+10; 0x1.5540000000000p+10; 0x1.5bbf5c28f5c29p+10; 0x1.5c8eb851eb852p+10; 0x1.5e56666666666p+10; 0x1.5e8e147ae147bp+10; 0x1.5eb3333333333p+10; 0x1.5f77ae147ae14p+10; 0x1.5f070a3d70a3dp+10; 0x1.5efb851eb851fp+10; 0x1.5f61eb851eb85p+10; 0x1.61e0a3d70a3d7p+10; 0x1.628a3d70a3d71p+10; 0x1.628851eb851ecp+10; 0x1.614ae147ae148p+10; 0x1.615f5c28f5c29p+10; 0x1.5e851eb851eb8p+10; 0x1.60c851eb851ecp+10; 0x1.609c28f5c28f6p+10; 0x1.6053333333333p+10; 0x1.609f5c28f5c29p+10].
(* test/data/cs-vortex.csv '+VI14' *)
Definition d048 : list float := [nan; nan; nan; nan; nan; nan; nan; nan; nan; nan; nan; nan; nan; nan; 0x1.192263d816acfp+0; 0x1.26e0c17657753p+0; 0x1.4351159c49774p+0; 0x1.548fc9363f573p+0; 0x1.572a6b0d95140p+0; 0x1.59314445aa2e4p+0; 0x1.435b91f70de8fp+0; 0x1.34896dd26b724p+0; 0x1.3491f2dc2b0eap+0; 0x1.3a81cb46bacf7p+0; 0x1.58793dd97f62bp+0; 0x1.4322af5771002p+0; 0x1.0c6412cf0f9d3p+0; 0x1.1c0e6afcce1c6p+0; 0x1.1217b0f6ad70ep+0; 0x1.0ed30f062d40bp+0].
(* test/data/cs-vortex.csv '-VI14' *)
Definition d049 : list float := [nan; nan; nan; nan; nan; nan; nan; nan; nan; nan; nan; nan; nan; nan; 0x1.c9947cfa26a23p-1; 0x1.bb4549b62c775p-1; 0x1.95b35b0bbf50ep-1; 0x1.7369fcf3dc055p-1; 0x1.532f23033a472p-1; 0x1.7e6d9be4cd749p-1; 0x1.a4fe586013661p-1; 0x1.a57f0ed3d859dp-1; 0x1.971f57b41bfbep-1; 0x1.77a786c22680ap-1; 0x1.70307f23cc8dep-1; 0x1.b41743e963dc5p-1; 0x1.cc317acc4ef89p-1; 0x1.dd3a1d323fee3p-1; 0x1.db784662bae04p-1; 0x1.e13d74d594f27p-1].
(* test/data/cs-psar.csv 'High' *)
Definition d050 : list float := [0x1.833886594af4fp+4; 0x1.8127525460aa6p+4; 0x1.80ad42c3c9eedp+4; 0x1.7df9096bb98c8p+4; 0x1.7acac083126e9p+4; 0x1.795c91d14e3bdp+4; 0x1.7cdbf487fcb92p+4; 0x1.7cdb8bac710cbp+4; 0x1.84cfaacd9e83ep+4; 0x1.826cf41f212d7p+4; 0x1.80d5cfaacd9e8p+4; 0x1.80fec56d5cfabp+4; 0x1.7e21ff2e48e8ap+4; 0x1.922b6ae7d566dp+4; 0x1.931f8a0902de0p+4; 0x1.910e560418937p+4; 0x1.93710cb295e9ep+4; 0x1.95fc504816f00p+4; 0x1.95d3c36113405p+4; 0x1.943c9eecbfb16p+4; 0x1.8d147ae147ae1p+4; 0x1.87096bb98c7e3p+4; 0x1.8a604189374bcp+4; 0x1.8d65fd8adab9fp+4; 0x1.8bf765fd8adacp+4; 0x1.8826809d49518p+4; 0x1.8adab9f559b3dp+4; 0x1.8ab1c432ca57ap+4; 0x1.7d7ef9db22d0ep+4; 0x1.84cfaacd9e83ep+4].
(* test/data/cs-psar.csv 'Low' *)
Definition d051 : list float := [0x1.7da786c22680ap+4; 0x1.7b9652bd3c361p+4; 0x1.7a50b0f27bb30p+4; 0x1.75dcc63f14120p+4; 0x1.774b5dcc63f14p+4; 0x1.72d77318fc505p+4; 0x1.7656d5cfaacdap+4; 0x1.790b0f27bb2ffp+4; 0x1.80d5cfaacd9e8p+4; 0x1.7c61e4f765fd9p+4; 0x1.79851eb851eb8p+4; 0x1.7d7ef9db22d0ep+4; 0x1.7a50b0f27bb30p+4; 0x1.7f161e4f765fep+4; 0x1.8bced916872b0p+4; 0x1.8c48e8a71de6ap+4; 0x1.8e5a1cac08312p+4; 0x1.8ed42c3c9eeccp+4; 0x1.8f4ea4a8c154dp+4; 0x1.8ed42c3c9eeccp+4; 0x1.836113404ea4bp+4; 0x1.836113404ea4bp+4; 0x1.86e0ded288ce7p+4; 0x1.87096bb98c7e3p+4; 0x1.833886594af4fp+4; 0x1.8404189374bc7p+4; 0x1.836113404ea4bp+4; 0x1.826cf41f212d7p+4; 0x1.7a28240b78034p+4; 0x1.7c395810624ddp+4].
(* test/data/cs-psar.csv 'Close' *)
Definition d052 : list float := [0x1.7e4a8c154c986p+4; 0x1.7f3eab367a0f9p+4; 0x1.7acac083126e9p+4; 0x1.7c8adab9f559bp+4; 0x1.77edfa43fe5c9p+4; 0x1.7525aee631f8ap+4; 0x1.7c10624dd2f1bp+4; 0x1.7cb367a0f9097p+4; 0x1.824467381d7dcp+4; 0x1.7d04ea4a8c155p+4; 0x1.7c8adab9f559bp+4; 0x1.7dd07c84b5dccp+4; 0x1.7b4538ef34d6ap+4; 0x1.8f4ea4a8c154dp+4; 0x1.8e089a0275254p+4; 0x1.8f62b6ae7d567p+4; 0x1.92ce075f6fd22p+4; 0x1.910e560418937p+4; 0x1.94652bd3c3611p+4; 0x1.8ff141205bc02p+4; 0x1.875aee631f8a1p+4; 0x1.847e28240b780p+4; 0x1.89faacd9e83e4p+4; 0x1.894dd2f1a9fbep+4; 0x1.886dc5d638866p+4; 0x1.859b3d07c84b6p+4; 0x1.8572474538ef3p+4; 0x1.83b295e9e1b09p+4; 0x1.7c395810624ddp+4; 0x1.833886594af4fp+4].
(* test/data/cs-psar.csv 'psar_up' *)
Definition d053 : list float := [nan; nan; nan; nan; nan; nan; nan; nan; 0x1.72d77318fc505p+4; 0x1.7333743632c1fp+4; 0x1.738d9e4377791p+4; 0x1.73e5faab575c3p+4; 0x1.743c92ad6c346p+4; 0x1.74916f50f0b36p+4; 0x1.75c08ddca201fp+4; 0x1.7783b1783296bp+4; 0x1.792bc3956b8c9p+4; 0x1.7b45c9704bed7p+4; 0x1.7df1a3b95825ep+4; 0x1.80591b5f56fd9p+4; 0x1.82830710c06c9p+4; nan; nan; nan; nan; nan; nan; nan; nan; nan].
(* test/data/cs-psar.csv 'psar_down' *)
Definition d054 : list float := [nan; nan; 0x1.833886594af4fp+4; 0x1.830aed99cbee8p+4; 0x1.8283f6443f751p+4; 0x1.820264fcaee7bp+4; 0x1.81196af2e8148p+4; 0x1.803e6b703b7c5p+4; nan; nan; nan; nan; nan; nan; nan; nan; nan; nan; nan; nan; nan; 0x1.95fc504816f00p+4; 0x1.959d0c8041030p+4; 0x1.953fb079dae26p+4; 0x1.94e43274716c0p+4; 0x1.942f400c3496bp+4; 0x1.93818a8986511p+4; 0x1.92dac7cf61fd7p+4; 0x1.91de6e4fbeda2p+4; 0x1.8ff8cec621370p+4].
(* test/data/cs-psar.csv 'psar_up_ind' *)
Definition d055 : list float := [0x0.0p+0; 0x0.0p+0; 0x0.0p+0; 0x0.0p+0; 0x0.0p+0; 0x0.0p+0; 0x0.0p+0; 0x0.0p+0; 0x1.0000000000000p+0; 0x0.0p+0; 0x0.0p+0; 0x0.0p+0; 0x0.0p+0; 0x0.0p+0; 0x0.0p+0; 0x0.0p+0; 0x0.0p+0; 0x0.0p+0; 0x0.0p+0; 0x0.0p+0; 0x0.0p+0; 0x0.0p+0; 0x0.0p+0; 0x0.0p+0; 0x0.0p+0; 0x0.0p+0; 0x0.0p+0; 0x0.0p+0; 0x0.0p+0; 0x0.0p+0].
(* test/data/cs-psar.csv 'psar_down_ind' *)
Definition d056 : list float := [0x0.0p+0; 0x0.0p+0; 0x1.0000000000000p+0; 0x0.0p+0; 0x0.0p+0; 0x0.0p+0; 0x0.0p+0; 0x0.0p+0; 0x0.0p+0; 0x0.0p+0; 0x0.0p+0; 0x0.0p+0; 0x0.0p+0; 0x0.0p+0; 0x0.0p+0; 0x0.0p+0; 0x0.0p+0; 0x0.0p+0; 0x0.0p+0; 0x0.0p+0; 0x0.0p+0; 0x1.0000000000000p+0; 0x0.0p+0; 0x0.0p+0; 0x0.0p+0; 0x0.0p+0; 0x0.0p+0; 0x0.0p+0; 0x0.0p+0; 0x0.0p+0].
(* test/data/cs-stc.csv 'Close' *)
Definition d057 : list float := [0x1.e333333333333p+4; 0x1.e47ae147ae148p+4; 0x1.e733333333333p+4; 0x1.d59999999999ap+4; 0x1.d59999999999ap+4; 0x1.d4a3d70a3d70ap+4; 0x1.cd47ae147ae14p+4; 0x1.cbae147ae147bp+4; 0x1.cab851eb851ecp+4; 0x1.cd9999999999ap+4; 0x1.ca3d70a3d70a4p+4; 0x1.bae147ae147aep+4; 0x1.b35c28f5c28f6p+4; 0x1.adeb851eb851fp+4; 0x1.b68f5c28f5c29p+4; 0x1.af0a3d70a3d71p+4; 0x1.a851eb851eb85p+4; 0x1.a851eb851eb85p+4; 0x1.b170a3d70a3d7p+4; 0x1.bb0a3d70a3d71p+4; 0x1.c733333333333p+4; 0x1.c87ae147ae148p+4; 0x1.cab851eb851ecp+4; 0x1.d028f5c28f5c3p+4; 0x1.ddeb851eb851fp+4; 0x1.dcccccccccccdp+4; 0x1.dc00000000000p+4; 0x1.ea66666666666p+4; 0x1.e99999999999ap+4; 0x1.ec28f5c28f5c3p+4; 0x1.e333333333333p+4; 0x1.e47ae147ae148p+4; 0x1.e733333333333p+4; 0x1.d59999999999ap+4; 0x1.d59999999999ap+4; 0x1.d4a3d70a3d70ap+4; 0x1.cd47ae147ae14p+4; 0x1.cbae147ae147bp+4; 0x1.cab851eb851ecp+4; 0x1.cd9999999999ap+4; 0x1.ca3d70a3d70a4p+4; 0x1.bae147ae147aep+4; 0x1.b35c28f5c28f6p+4; 0x1.adeb851eb851fp+4; 0x1.b68f5c28f5c29p+4; 0x1.af0a3d70a3d71p+4; 0x1.a851eb851eb85p+4; 0x1.a851eb851eb85p+4; 0x1.b170a3d70a3d7p+4; 0x1.bb0a3d70a3d71p+4; 0x1.c733333333333p+4; 0x1.c87ae147ae148p+4; 0x1.cab851eb851ecp+4; 0x1.d028f5c28f5c3p+4; 0x1.ddeb851eb851fp+4; 0x1.dcccccccccccdp+4; 0x1.dc00000000000p+4; 0x1.ea66666666666p+4; 0x1.e99999999999ap+4; 0x1.ec28f5c28f5c3p+4; 0x1.e333333333333p+4; 0x1.e47ae147ae148p+4; 0x1.e733333333333p+4; 0x1.d59999999999ap+4; 0x1.d59999999999ap+4; 0x1.d4a3d70a3d70ap+4; 0x1.cd47ae147ae14p+4; 0x1.cbae147ae147bp+4; 0x1.cab851eb851ecp+4; 0x1.cd9999999999ap+4; 0x1.ca3d70a3d70a4p+4; 0x1.bae147ae147aep+4; 0x1.b35c28f5c28f6p+4; 0x1.adeb851eb851fp+4; 0x1.b68f5c28f5c29p+4; 0x1.af0a3d70a3d71p+4; 0x1.a851eb851eb85p+4; 0x1.a851eb851eb85p+4; 0x1.b170a3d70a3d7p+4; 0x1.bb0a3d70a3d71p+4; 0x1.c733333333333p+4; 0x1.c87ae147ae148p+4; 0x1.cab851eb851ecp+4; 0x1.d028f5c28f5c3p+4; 0x1.ddeb851eb851fp+4; 0x1.dcccccccccccdp+4; 0x1.dc00000000000p+4; 0x1.ea66666666666p+4; 0x1.e99999999999ap+4; 0x1.ec28f5c28f5c3p+4; 0x1.e333333333333p+4; 0x1.e47ae147ae148p+4; 0x1.e733333333333p+4; 0x1.d59999999999ap+4; 0x1.d59999999999ap+4; 0x1.d4a3d70a3d70ap+4; 0x1.cd47ae147ae14p+4; 0x1.cbae147ae147bp+4; 0x1.cab851eb851ecp+4; 0x1.cd9999999999ap+4; 0x1.ca3d70a3d70a4p+4; 0x1.bae147ae147aep+4; 0x1.b35c28f5c28f6p+4; 0x1.adeb851eb851fp+4; 0x1.b68f5c28f5c29p+4; 0x1.af0a3d70a3d71p+4; 0x1.a851eb851eb85p+4; 0x1.a851eb851eb85p+4; 0x1.b170a3d70a3d7p+4; 0x1.bb0a3d70a3d71p+4; 0x1.c733333333333p+4; 0x1.c87ae147ae148p+4; 0x1.cab851eb851ecp+4; 0x1.d028f5c28f5c3p+4; 0x1.ddeb851eb851fp+4; 0x1.dcccccccccccdp+4; 0x1.dc00000000000p+4; 0x1.ea66666666666p+4; 0x1.e99999999999ap+4; 0x1.ec28f5c28f5c3p+4].
(* test/data/cs-stc.csv 'stc' *)
Definition d058 : list float := [0x0.0p+0; 0x1.9000000000000p+5; 0x1.2c00000000000p+6; 0x1.f400000000000p+5; 0x1.5e00000000000p+5; 0x1.c200000000000p+4; 0x1.1300000000000p+4; 0x1.4500000000000p+3; 0x1.7700000000000p+2; 0x1.a900000000000p+1; 0x1.a900000000000p+0; 0x1.a900000000000p-1; 0x1.a900000000000p-2; 0x1.a9000001b7ce0p-3; 0x1.a8fffffe48320p-4; 0x1.a8ffffffa80a0p-5; 0x1.a900000107e20p-6; 0x1.a8fffffe48320p-7; 0x1.a90000007b253p-8; 0x1.9006a3ffa40f9p+5; 0x1.2c01a9003eea2p+6; 0x1.5e00d47fc98edp+6; 0x1.77006a3fe4c77p+6; 0x1.838035204849fp+6; 0x1.89c01a9024250p+6; 0x1.8ce00d47bc2c4p+6; 0x1.8e7006a3de162p+6; 0x1.8f38035244f15p+6; 0x1.8f9c01a8cc927p+6; 0x1.8fce00d466493p+6; 0x1.8fe7006a3324ap+6; 0x1.8ff3803519925p+6; 0x1.8ff9c01a8cc92p+6; 0x1.8c4dca7b63ce8p+6; 0x1.791e2f5024b09p+6; 0x1.2778775952d79p+6; 0x1.2778775952d79p+5; 0x1.2778775aaa708p+4; 0x1.27787759978fcp+3; 0x1.27787759978fcp+2; 0x1.27787759978fcp+1; 0x1.2778775771ce4p+0; 0x1.27787759299c4p-1; 0x1.27787759299c4p-2; 0x1.27787759299c4p-3; 0x1.27787759299c4p-4; 0x1.27787759299c4p-5; 0x1.2778775a89744p-6; 0x1.277877596ffabp-7; 0x1.dc88eff9deb9fp+0; 0x1.4233f99f3dc86p+5; 0x1.188cfe67cf722p+6; 0x1.54467f3391d2dp+6; 0x1.72233f9a1ecfap+6; 0x1.81119fccb9819p+6; 0x1.8888cfe6b2a70p+6; 0x1.8c4467f359538p+6; 0x1.8e2233f956c38p+6; 0x1.8f1119fd01480p+6; 0x1.8f888cfe80a40p+6; 0x1.8fc4467eea6bcp+6; 0x1.8fe2233fcb1c2p+6; 0x1.8ff1119f8fa7dp+6; 0x1.878981f25e00ep+6; 0x1.5bb9a3a3de970p+6; 0x1.5d5e12f6fda2ep+5; 0x1.5d5e12f5a609fp+4; 0x1.5d5e12f5a609fp+3; 0x1.5d5e12f6b8eabp+2; 0x1.5d5e12f6b8eabp+1; 0x1.5d5e12f8deac2p+0; 0x1.5d5e12f726de3p-1; 0x1.5d5e12f64af73p-2; 0x1.5d5e12f64af73p-3; 0x1.5d5e12f6fae33p-4; 0x1.5d5e12f6fae33p-5; 0x1.5d5e12f6fae33p-6; 0x1.5d5e12f6fae33p-7; 0x1.5d5e12f6fae33p-8; 0x1.426cf3d98d16dp-1; 0x1.6180d6c7a26b8p+5; 0x1.206035b1e89aep+6; 0x1.58301ad89e673p+6; 0x1.74180d6ca519dp+6; 0x1.820c06b5fca6bp+6; 0x1.8906035b54399p+6; 0x1.8c8301adaa1cdp+6; 0x1.8e4180d67f283p+6; 0x1.8f20c06b3f941p+6; 0x1.8f9060359fca1p+6; 0x1.8fc8301b25cb4p+6; 0x1.8fe4180d3cff6p+6; 0x1.8ff20c069e7fbp+6; 0x1.86f56399d858cp+6; 0x1.582806fdcb1c7p+6; 0x1.582806fe76e8fp+5; 0x1.582806fd1f500p+4; 0x1.582806ffce81ep+3; 0x1.582806fda8c06p+2; 0x1.582806febba12p+1; 0x1.582806fc95dfap+0; 0x1.582806fe4dadap-1; 0x1.582806fe4dadap-2; 0x1.582806fc95dfap-3; 0x1.582806fdf5b7ap-4; 0x1.582806fdf5b7ap-5; 0x1.582806ff558fap-6; 0x1.582806fc95dfap-7; 0x1.582806fdaf593p-8; 0x1.582806fec8d2dp-9; 0x1.70a9c32a61a86p+5; 0x1.242a70ca986a2p+6; 0x1.5a153865a21b5p+6; 0x1.750a9c327b277p+6; 0x1.82854e199379fp+6; 0x1.8942a70cc9bcfp+6; 0x1.8ca153860ef84p+6; 0x1.8e50a9c3077c2p+6; 0x1.8f2854e1d9a45p+6; 0x1.8f942a70ecd22p+6].
(* test/data/cs-wma.csv 'Close' *)
Definition d059 : list float := [0x1.1e80000000000p+9; 0x1.457999999999ap+9; 0x1.62f1eb851eb85p+9; 0x1.6cea3d70a3d71p+9; 0x1.749ae147ae148p+9; 0x1.78f1eb851eb85p+9; 0x1.752e147ae147bp+9; 0x1.575c28f5c28f6p+9; 0x1.6e0e147ae147bp+9; 0x1.60d0a3d70a3d7p+9; 0x1.6a93333333333p+9; 0x1.8f60000000000p+9; 0x1.808f5c28f5c29p+9; 0x1.904147ae147aep+9; 0x1.86f0a3d70a3d7p+9; 0x1.5ea8f5c28f5c3p+9; 0x1.7c9851eb851ecp+9; 0x1.801ae147ae148p+9; 0x1.874a3d70a3d71p+9; 0x1.86051eb851eb8p+9; 0x1.99b5c28f5c28fp+9; 0x1.95a51eb851eb8p+9; 0x1.94b47ae147ae1p+9; 0x1.8b7ae147ae148p+9; 0x1.91aa3d70a3d71p+9; 0x1.8f95c28f5c28fp+9; 0x1.96d0a3d70a3d7p+9; 0x1.940147ae147aep+9; 0x1.97c7ae147ae14p+9; 0x1.9dccccccccccdp+9; 0x1.9870a3d70a3d7p+9; 0x1.996f5c28f5c29p+9; 0x1.9a1d70a3d70a4p+9; 0x1.92e7ae147ae14p+9; 0x1.a180000000000p+9; 0x1.c10cccccccccdp+9; 0x1.b8c7ae147ae14p+9; 0x1.b97ae147ae148p+9; 0x1.b030a3d70a3d7p+9; 0x1.bad47ae147ae1p+9].
(* test/data/cs-wma.csv 'WMA' *)
Definition d060 : list float := [0x1.07113404ea4a9p+9; 0x1.14c3fb15b573fp+9; 0x1.26b4504816f00p+9; 0x1.389257a786c22p+9; 0x1.4937ec56d5cfbp+9; 0x1.5780b780346dcp+9; 0x1.61fdb22d0e560p+9; 0x1.63f5566cf41f2p+9; 0x1.68e51eb851eb8p+9; 0x1.6925b8bac710dp+9; 0x1.69e0c49ba5e35p+9; 0x1.7124ea4a8c155p+9; 0x1.7475c91d14e3cp+9; 0x1.7a7a7bb2fec57p+9; 0x1.7e04f41f212d7p+9; 0x1.7931758e21965p+9; 0x1.7adac3c9eecc0p+9; 0x1.7c63f487fcb92p+9; 0x1.7ef652bd3c361p+9; 0x1.806cccccccccdp+9; 0x1.85374538ef34dp+9; 0x1.88f6cf41f212dp+9; 0x1.8c0e48e8a71dep+9; 0x1.8d341bda5119dp+9; 0x1.8f7cc985f06f7p+9; 0x1.9038ce703afb8p+9; 0x1.91faf837b4a23p+9; 0x1.92ac0ebedfa44p+9; 0x1.93d61b089a027p+9; 0x1.95cf559b3d07dp+9; 0x1.969edc5d63886p+9; 0x1.97916f0068db9p+9; 0x1.988beab367a10p+9; 0x1.97c1ff2e48e8ap+9; 0x1.99dc467381d7ep+9; 0x1.a1e0000000000p+9; 0x1.a74c083126e98p+9; 0x1.ac0ab367a0f91p+9; 0x1.ae2dfd8adab9fp+9; 0x1.b20972474538fp+9].
(* test/data/cs-atr.csv 'High' *)
Definition d061 : list float := [0x1.859999999999ap+5; 0x1.85c28f5c28f5cp+5; 0x1.8733333333333p+5; 0x1.86f5c28f5c28fp+5; 0x1.868f5c28f5c29p+5; 0x1.8866666666666p+5; 0x1.899999999999ap+5; 0x1.8accccccccccdp+5; 0x1.8f5c28f5c28f6p+5; 0x1.91851eb851eb8p+5; 0x1.90f5c28f5c28fp+5; 0x1.8d47ae147ae14p+5; 0x1.8f0a3d70a3d71p+5; 0x1.91851eb851eb8p+5; 0x1.92e147ae147aep+5; 0x1.948f5c28f5c29p+5; 0x1.9533333333333p+5; 0x1.9370a3d70a3d7p+5; 0x1.8d0a3d70a3d71p+5; 0x1.92a3d70a3d70ap+5; 0x1.9251eb851eb85p+5; 0x1.915c28f5c28f6p+5; 0x1.8a8f5c28f5c29p+5; 0x1.8400000000000p+5; 0x1.828f9096bb98cp+5; 0x1.7666666666666p+5; 0x1.7e66666666666p+5; 0x1.831eb851eb852p+5; 0x1.8547ae147ae14p+5; 0x1.8651eb851eb85p+5].
(* test/data/cs-atr.csv 'Low' *)
Definition d062 : list float := [0x1.7e51eb851eb85p+5; 0x1.811eb851eb852p+5; 0x1.831eb851eb852p+5; 0x1.82f5c28f5c28fp+5; 0x1.81eb851eb851fp+5; 0x1.85147ae147ae1p+5; 0x1.87851eb851eb8p+5; 0x1.86e147ae147aep+5; 0x1.8c00000000000p+5; 0x1.8ef5c28f5c28fp+5; 0x1.899999999999ap+5; 0x1.8733333333333p+5; 0x1.8b70a3d70a3d7p+5; 0x1.8dccccccccccdp+5; 0x1.8a147ae147ae1p+5; 0x1.90b851eb851ecp+5; 0x1.9266666666666p+5; 0x1.89ae147ae147bp+5; 0x1.87d70a3d70a3dp+5; 0x1.8ce147ae147aep+5; 0x1.899999999999ap+5; 0x1.8b70a3d70a3d7p+5; 0x1.80a3d70a3d70ap+5; 0x1.7d1eb851eb852p+5; 0x1.4c66666666666p+5; 0x1.624432ca57a78p+5; 0x1.7a7ae147ae148p+5; 0x1.799999999999ap+5; 0x1.7f33333333333p+5; 0x1.7dd73eab367a1p+5].
(* test/data/cs-atr.csv 'Close' *)
Definition d063 : list float := [0x1.8147ae147ae14p+5; 0x1.84e147ae147aep+5; 0x1.8600000000000p+5; 0x1.850a3d70a3d71p+5; 0x1.85eb851eb851fp+5; 0x1.883d70a3d70a4p+5; 0x1.888f5c28f5c29p+5; 0x1.8a8f5c28f5c29p+5; 0x1.8f47ae147ae14p+5; 0x1.910a3d70a3d71p+5; 0x1.8c3d70a3d70a4p+5; 0x1.8c00000000000p+5; 0x1.8e00000000000p+5; 0x1.903d70a3d70a4p+5; 0x1.927ae147ae148p+5; 0x1.9428f5c28f5c3p+5; 0x1.9347ae147ae14p+5; 0x1.8ab851eb851ecp+5; 0x1.8af5c28f5c28fp+5; 0x1.91d70a3d70a3dp+5; 0x1.89e6666666666p+5; 0x1.8f70a3d70a3d7p+5; 0x1.8370a3d70a3d7p+5; 0x1.8170a3d70a3d7p+5; 0x1.748f5c28f5c29p+5; 0x1.6b47ae147ae14p+5; 0x1.7e28f5c28f5c3p+5; 0x1.7dc28f5c28f5cp+5; 0x1.84f5c28f5c28fp+5; 0x1.7eccccccccccdp+5].
(* test/data/cs-atr.csv 'ATR' *)
Definition d064 : list float := [0x0.0p+0; 0x0.0p+0; 0x0.0p+0; 0x0.0p+0; 0x0.0p+0; 0x0.0p+0; 0x0.0p+0; 0x0.0p+0; 0x0.0p+0; 0x0.0p+0; 0x0.0p+0; 0x0.0p+0; 0x0.0p+0; 0x1.1c28f5c28f5c3p-1; 0x1.301767dca5606p-1; 0x1.2becc61c9c7d5p-1; 0x1.234d3b9ec6e7fp-1; 0x1.3b1c8fdcf1210p-1; 0x1.3c6001ee22d01p-1; 0x1.48e2a88efc730p-1; 0x1.5941a54b5a6fbp-1; 0x1.62b2b77a64a6fp-1; 0x1.8d050974e0e21p-1; 0x1.901cd07648b35p-1; 0x1.35900a5b9afdcp+0; 0x1.4d787f944603dp+0; 0x1.615aae1037f55p+0; 0x1.5ddfe7d852224p+0; 0x1.561278ed40798p+0; 0x1.5104fb631e6e9p+0].
(* test/data/cs-atr2.csv 'High' *)
Definition d065 : list float := [0x1.859999999999ap+5; 0x1.85c28f5c28f5cp+5; 0x1.8733333333333p+5; 0x1.86f5c28f5c28fp+5; 0x1.868f5c28f5c29p+5; 0x1.8866666666666p+5; 0x1.899999999999ap+5; 0x1.8accccccccccdp+5; 0x1.8f5c28f5c28f6p+5; 0x1.91851eb851eb8p+5; 0x1.90f5c28f5c28fp+5; 0x1.8d47ae147ae14p+5; 0x1.8f0a3d70a3d71p+5; 0x1.91851eb851eb8p+5; 0x1.92e147ae147aep+5; 0x1.948f5c28f5c29p+5; 0x1.9533333333333p+5; 0x1.9370a3d70a3d7p+5; 0x1.8d0a3d70a3d71p+5; 0x1.92a3d70a3d70ap+5; 0x1.9251eb851eb85p+5; 0x1.915c28f5c28f6p+5; 0x1.8a8f5c28f5c29p+5; 0x1.8400000000000p+5; 0x1.828f9096bb98cp+5; 0x1.7666666666666p+5; 0x1.7e66666666666p+5; 0x1.831eb851eb852p+5; 0x1.8547ae147ae14p+5; 0x1.8651eb851eb85p+5].
(* test/data/cs-atr2.csv 'Low' *)
Definition d066 : list float := [0x1.7e51eb851eb85p+5; 0x1.811eb851eb852p+5; 0x1.831eb851eb852p+5; 0x1.82f5c28f5c28fp+5; 0x1.81eb851eb851fp+5; 0x1.85147ae147ae1p+5; 0x1.87851eb851eb8p+5; 0x1.86e147ae147aep+5; 0x1.8c00000000000p+5; 0x1.8ef5c28f5c28fp+5; 0x1.899999999999ap+5; 0x1.8733333333333p+5; 0x1.8b70a3d70a3d7p+5; 0x1.8dccccccccccdp+5; 0x1.8a147ae147ae1p+5; 0x1.90b851eb851ecp+5; 0x1.9266666666666p+5; 0x1.89ae147ae147bp+5; 0x1.87d70a3d70a3dp+5; 0x1.8ce147ae147aep+5; 0x1.899999999999ap+5; 0x1.8b70a3d70a3d7p+5; 0x1.80a3d70a3d70ap+5; 0x1.7d1eb851eb852p+5; 0x1.4c66666666666p+5; 0x1.624432ca57a78p+5; 0x1.7a7ae147ae148p+5; 0x1.799999999999ap+5; 0x1.7f33333333333p+5; 0x1.7dd73eab367a1p+5].
(* test/data/cs-atr2.csv 'Close' *)
Definition d067 : list float := [0x1.8147ae147ae14p+5; 0x1.84e147ae147aep+5; 0x1.8600000000000p+5; 0x1.850a3d70a3d71p+5; 0x1.85eb851eb851fp+5; 0x1.883d70a3d70a4p+5; 0x1.888f5c28f5c29p+5; 0x1.8a8f5c28f5c29p+5; 0x1.8f47ae147ae14p+5; 0x1.910a3d70a3d71p+5; 0x1.8c3d70a3d70a4p+5; 0x1.8c00000000000p+5; 0x1.8e00000000000p+5; 0x1.903d70a3d70a4p+5; 0x1.927ae147ae148p+5; 0x1.9428f5c28f5c3p+5; 0x1.9347ae147ae14p+5; 0x1.8ab851eb851ecp+5; 0x1.8af5c28f5c28fp+5; 0x1.91d70a3d70a3dp+5; 0x1.89e6666666666p+5; 0x1.8f70a3d70a3d7p+5; 0x1.8370a3d70a3d7p+5; 0x1.8170a3d70a3d7p+5; 0x1.748f5c28f5c29p+5; 0x1.6b47ae147ae14p+5; 0x1.7e28f5c28f5c3p+5; 0x1.7dc28f5c28f5cp+5; 0x1.84f5c28f5c28fp+5; 0x1.7eccccccccccdp+5].
(* test/data/cs-atr2.csv 'ATR' *)
Definition d068 : list float := [0x0.0p+0; 0x0.0p+0; 0x0.0p+0; 0x0.0p+0; 0x0.0p+0; 0x0.0p+0; 0x0.0p+0; 0x0.0p+0; 0x0.0p+0; 0x1.0872b020c49c3p-1; 0x1.1d9e83e425af7p-1; 0x1.27f822bbecaacp-1; 0x1.21698fe692714p-1; 0x1.1c477432d7c3ap-1; 0x1.382bd419474edp-1; 0x1.3187b39ff7791p-1; 0x1.24e5a6c84a3eep-1; 0x1.4612453548f71p-1; 0x1.46be85f7a2f36p-1; 0x1.5738c8714e0c4p-1; 0x1.6cb527161a359p-1; 0x1.77fb19f63236ap-1; 0x1.b11a4faf7f1d1p-1; 0x1.b1d312780f12dp-1; 0x1.70891c1d7dcfdp+0; 0x1.8c1c0b41206b7p+0; 0x1.a1aebe5a5ba4ep+0; 0x1.9660da6bf238fp+0; 0x1.85cdf3aef9bcdp+0; 0x1.79f51e09fb261p+0].
(* test/data/cs-bbands.csv 'Close' *)
Definition d069 : list float := [0x1.589f6fd21ff2ep+6; 0x1.6458c7e28240bp+6; 0x1.6321b089a0275p+6; 0x1.694a8c154c986p+6; 0x1.6444b5dcc63f1p+6; 0x1.6c94c985f06f7p+6; 0x1.65c240b780347p+6; 0x1.64b3333333333p+6; 0x1.5bb886594af4fp+6; 0x1.5eb367a0f9097p+6; 0x1.5bd6a161e4f76p+6; 0x1.65b837b4a233ap+6; 0x1.6549d495182aap+6; 0x1.62e57a786c227p+6; 0x1.5dcc7e28240b8p+6; 0x1.5d0db8bac710dp+6; 0x1.65fe76c8b4396p+6; 0x1.5f9a36e2eb1c4p+6; 0x1.64810624dd2f2p+6; 0x1.6ad13404ea4a9p+6; 0x1.7399b3d07c84bp+6; 0x1.73e9e1b089a02p+6; 0x1.6f3559b3d07c8p+6; 0x1.72a8a71de69adp+6; 0x1.72bcb923a29c7p+6; 0x1.713559b3d07c8p+6; 0x1.73170a3d70a3dp+6; 0x1.722631f8a0903p+6; 0x1.73cbc6a7ef9dbp+6; 0x1.74d0cb295e9e2p+6; 0x1.6c44816f0068ep+6; 0x1.6753c36113405p+6; 0x1.66f95810624ddp+6; 0x1.6998fc504816fp+6; 0x1.6af46dc5d6388p+6; 0x1.60121ff2e48e9p+6; 0x1.6058c7e28240bp+6; 0x1.5b6027525460bp+6; 0x1.6b1cc63f14120p+6; 0x1.6a2a9930be0dfp+6; 0x1.6d8ebedfa43fep+6; 0x1.6a9999999999ap+6].
(* test/data/cs-bbands.csv 'MiddleBand' *)
Definition d070 : list float := [nan; nan; nan; nan; nan; nan; nan; nan; nan; nan; nan; nan; nan; nan; nan; nan; nan; nan; nan; 0x1.62d4ee392e1efp+6; 0x1.642e3e6c4c597p+6; 0x1.64f57fb69984ap+6; 0x1.659014f8b588ep+6; 0x1.6607fcb923a2ap+6; 0x1.66c130164840ep+6; 0x1.66fc6a7ef9db2p+6; 0x1.67a70e2c12ad8p+6; 0x1.68533482be8bcp+6; 0x1.69875e2046c76p+6; 0x1.6aa26fe718a87p+6; 0x1.6b74bb1af3a15p+6; 0x1.6b894ee392e1fp+6; 0x1.6b9ee2435696ep+6; 0x1.6bf4a8c154c98p+6; 0x1.6c9d0e5604189p+6; 0x1.6cc3ad18d25eep+6; 0x1.6c7b645a1cac1p+6; 0x1.6c4549f94855ep+6; 0x1.6c99e060fe47ap+6; 0x1.6c918bd66277cp+6; 0x1.6c4432ca57a78p+6; 0x1.6bccfbfc6540dp+6].
(* test/data/cs-bbands.csv 'HighBand' *)
Definition d071 : list float := [nan; nan; nan; nan; nan; nan; nan; nan; nan; nan; nan; nan; nan; nan; nan; nan; nan; nan; nan; 0x1.6d2adddf43c7dp+6; 0x1.6fcc0ce91c8ebp+6; 0x1.72734c1a8ac5cp+6; 0x1.73bc9eecbfb16p+6; 0x1.753f6fd21ff2ep+6; 0x1.76e9eecbfb15bp+6; 0x1.77992ea52ef91p+6; 0x1.7910a52695960p+6; 0x1.7a42a8869c66dp+6; 0x1.7b25cc426351ep+6; 0x1.7c2c087442c80p+6; 0x1.7ba1633482be9p+6; 0x1.7b9c94f69ca9fp+6; 0x1.7b94cec41dd1ap+6; 0x1.7b71ad6451b93p+6; 0x1.7ab1cbccf28c8p+6; 0x1.7a39f383f0bafp+6; 0x1.7ab70ac3a860ep+6; 0x1.7b5cac8e68e3fp+6; 0x1.7b4813879c411p+6; 0x1.7b447e8ccdd94p+6; 0x1.7a9e820e62995p+6; 0x1.79ba98eda22f7p+6].
(* test/data/cs-bbands.csv 'LowBand' *)
Definition d072 : list float := [nan; nan; nan; nan; nan; nan; nan; nan; nan; nan; nan; nan; nan; nan; nan; nan; nan; nan; nan; 0x1.587efe9318762p+6; 0x1.58906fef7c244p+6; 0x1.5777b352a8438p+6; 0x1.57638b04ab607p+6; 0x1.56d089a027525p+6; 0x1.56987160956c1p+6; 0x1.565fa658c4bd3p+6; 0x1.563d77318fc50p+6; 0x1.5663c07ee0b0bp+6; 0x1.57e8effe2a3cfp+6; 0x1.5918d759ee88ep+6; 0x1.5b48130164841p+6; 0x1.5b7608d08919fp+6; 0x1.5ba8f5c28f5c3p+6; 0x1.5c77a41e57d9ep+6; 0x1.5e8850df15a4bp+6; 0x1.5f4d66adb402dp+6; 0x1.5e3fbdf090f73p+6; 0x1.5d2de76427c7cp+6; 0x1.5debad3a604e2p+6; 0x1.5dde991ff7165p+6; 0x1.5de9e3864cb5cp+6; 0x1.5ddf5f0b28523p+6].
(* test/data/cs-bbands.csv 'WidthBand' *)
Definition d073 : list float := [nan; nan; nan; nan; nan; nan; nan; nan; nan; nan; nan; nan; nan; nan; nan; nan; nan; nan; nan; 0x1.74d805e5f30e8p+2; 0x1.a17525460aa65p+2; 0x1.e3c7e6b3fe9fbp+2; 0x1.fb6612839042ep+2; 0x1.100140dd3fe19p+3; 0x1.20456b441bb8cp+3; 0x1.282a497fa5d29p+3; 0x1.35da98676a726p+3; 0x1.3e90364388ebdp+3; 0x1.37e65bea0ba1fp+3; 0x1.35832fcac8e69p+3; 0x1.1ccfb97bb7308p+3; 0x1.1b00baa582dbep+3; 0x1.18eb5f5f0b285p+3; 0x1.105b163baba7cp+3; 0x1.ee52ce032db1fp+2; 0x1.d865bea0ba1f5p+2; 0x1.f3d6e47dc37a4p+2; 0x1.09252ce032db2p+3; 0x1.01b14ec204f2bp+3; 0x1.020a88effe2a4p+3; 0x1.f85803cd141a7p+2; 0x1.ea0ce4ead0c3dp+2].
(* test/data/cs-bbands.csv 'PercentageBand' *)
Definition d074 : list float := [nan; nan; nan; nan; nan; nan; nan; nan; nan; nan; nan; nan; nan; nan; nan; nan; nan; nan; nan; 0x1.c5c9a34ca0c28p-1; 0x1.29e892253111fp+0; 0x1.0de1e2de87097p+0; 0x1.ae362a5e785b6p-1; 0x1.d471715c63ae2p-1; 0x1.bdd52c16df3f9p-1; 0x1.9d87724fa8b4cp-1; 0x1.a82795703f2d4p-1; 0x1.8c399b2c40d0bp-1; 0x1.952e72da122fbp-1; 0x1.949dbec2480e9p-1; 0x1.0cd898b2e9ccbp-1; 0x1.79f01b866e43bp-2; 0x1.6af0bf1a5ca2ap-2; 0x1.b20c49ba5e354p-2; 0x1.c3b03e20ccff2p-2; 0x1.d39da16616b55p-6; 0x1.2ddaceee0f3cbp-4; (-0x1.e98dcdb37c99bp-5); 0x1.cc148344c37e7p-2; 0x1.ac53f39d1b2e6p-2; 0x1.1707bfe7e1fc1p-1; 0x1.d3dc8b86b15f9p-2].
(* test/data/cs-bbands.csv 'CrossUp' *)
Definition d075 : list float := [nan; nan; nan; nan; nan; nan; nan; nan; nan; nan; nan; nan; nan; nan; nan; nan; nan; nan; nan; 0x0.0p+0; 0x1.0000000000000p+0; 0x1.0000000000000p+0; 0x0.0p+0; 0x0.0p+0; 0x0.0p+0; 0x0.0p+0; 0x0.0p+0; 0x0.0p+0; 0x0.0p+0; 0x0.0p+0; 0x0.0p+0; 0x0.0p+0; 0x0.0p+0; 0x0.0p+0; 0x0.0p+0; 0x0.0p+0; 0x0.0p+0; 0x0.0p+0; 0x0.0p+0; 0x0.0p+0; 0x0.0p+0; 0x0.0p+0].
(* test/data/cs-bbands.csv 'CrossDown' *)
Definition d076 : list float := [nan; nan; nan; nan; nan; nan; nan; nan; nan; nan; nan; nan; nan; nan; nan; nan; nan; nan; nan; 0x0.0p+0; 0x0.0p+0; 0x0.0p+0; 0x0.0p+0; 0x0.0p+0; 0x0.0p+0; 0x0.0p+0; 0x0.0p+0; 0x0.0p+0; 0x0.0p+0; 0x0.0p+0; 0x0.0p+0; 0x0.0p+0; 0x0.0p+0; 0x0.0p+0; 0x0.0p+0; 0x0.0p+0; 0x0.0p+0; 0x1.0000000000000p+0; 0x0.0p+0; 0x0.0p+0; 0x0.0p+0; 0x0.0p+0].
(* test/data/cs-dc.csv 'high' *)
Definition d077 : list float := [0x1.859999999999ap+5; 0x1.85c28f5c28f5cp+5; 0x1.8733333333333p+5; 0x1.86f5c28f5c28fp+5; 0x1.868f5c28f5c29p+5; 0x1.8866666666666p+5; 0x1.899999999999ap+5; 0x1.8accccccccccdp+5; 0x1.8f5c28f5c28f6p+5; 0x1.91851eb851eb8p+5; 0x1.90f5c28f5c28fp+5; 0x1.8d47ae147ae14p+5; 0x1.8f0a3d70a3d71p+5; 0x1.91851eb851eb8p+5; 0x1.92e147ae147aep+5; 0x1.948f5c28f5c29p+5; 0x1.9533333333333p+5; 0x1.9370a3d70a3d7p+5; 0x1.8d0a3d70a3d71p+5; 0x1.92a3d70a3d70ap+5; 0x1.9251eb851eb85p+5; 0x1.915c28f5c28f6p+5; 0x1.8a8f5c28f5c29p+5; 0x1.8400000000000p+5; 0x1.828f9096bb98cp+5; 0x1.7666666666666p+5; 0x1.7e66666666666p+5; 0x1.831eb851eb852p+5; 0x1.8547ae147ae14p+5; 0x1.8651eb851eb85p+5].
(* test/data/cs-dc.csv 'low' *)
Definition d078 : list float := [0x1.7e51eb851eb85p+5; 0x1.811eb851eb852p+5; 0x1.831eb851eb852p+5; 0x1.82f5c28f5c28fp+5; 0x1.81eb851eb851fp+5; 0x1.85147ae147ae1p+5; 0x1.87851eb851eb8p+5; 0x1.86e147ae147aep+5; 0x1.8c00000000000p+5; 0x1.8ef5c28f5c28fp+5; 0x1.899999999999ap+5; 0x1.8733333333333p+5; 0x1.8b70a3d70a3d7p+5; 0x1.8dccccccccccdp+5; 0x1.8a147ae147ae1p+5; 0x1.90b851eb851ecp+5; 0x1.9266666666666p+5; 0x1.89ae147ae147bp+5; 0x1.87d70a3d70a3dp+5; 0x1.8ce147ae147aep+5; 0x1.899999999999ap+5; 0x1.8b70a3d70a3d7p+5; 0x1.80a3d70a3d70ap+5; 0x1.7d1eb851eb852p+5; 0x1.4c66666666666p+5; 0x1.624432ca57a78p+5; 0x1.7a7ae147ae148p+5; 0x1.799999999999ap+5; 0x1.7f33333333333p+5; 0x1.7dd73eab367a1p+5].
(* test/data/cs-dc.csv 'close' *)
Definition d079 : list float := [0x1.8147ae147ae14p+5; 0x1.84e147ae147aep+5; 0x1.8600000000000p+5; 0x1.850a3d70a3d71p+5; 0x1.85eb851eb851fp+5; 0x1.883d70a3d70a4p+5; 0x1.888f5c28f5c29p+5; 0x1.8a8f5c28f5c29p+5; 0x1.8f47ae147ae14p+5; 0x1.910a3d70a3d71p+5; 0x1.8c3d70a3d70a4p+5; 0x1.8c00000000000p+5; 0x1.8e00000000000p+5; 0x1.903d70a3d70a4p+5; 0x1.927ae147ae148p+5; 0x1.9428f5c28f5c3p+5; 0x1.9347ae147ae14p+5; 0x1.8ab851eb851ecp+5; 0x1.8af5c28f5c28fp+5; 0x1.91d70a3d70a3dp+5; 0x1.89e6666666666p+5; 0x1.8f70a3d70a3d7p+5; 0x1.8370a3d70a3d7p+5; 0x1.8400000000000p+5; 0x1.748f5c28f5c29p+5; 0x1.6b47ae147ae14p+5; 0x1.7e28f5c28f5c3p+5; 0x1.7dc28f5c28f5cp+5; 0x1.84f5c28f5c28fp+5; 0x1.7eccccccccccdp+5].
(* test/data/cs-dc.csv 'middle_band' *)
Definition d080 : list float := [nan; nan; nan; nan; nan; nan; nan; nan; nan; nan; nan; nan; nan; nan; nan; nan; nan; nan; nan; 0x1.89c28f5c28f5cp+5; 0x1.8b33333333333p+5; 0x1.8b9999999999ap+5; 0x1.8af5c28f5c28fp+5; 0x1.8933333333333p+5; 0x1.70ccccccccccdp+5; 0x1.70ccccccccccdp+5; 0x1.70ccccccccccdp+5; 0x1.70ccccccccccdp+5; 0x1.70ccccccccccdp+5; 0x1.70ccccccccccdp+5].
(* test/data/cs-dc.csv 'upper_band' *)
Definition d081 : list float := [nan; nan; nan; nan; nan; nan; nan; nan; nan; nan; nan; nan; nan; nan; nan; nan; nan; nan; nan; 0x1.9533333333333p+5; 0x1.9533333333333p+5; 0x1.9533333333333p+5; 0x1.9533333333333p+5; 0x1.9533333333333p+5; 0x1.9533333333333p+5; 0x1.9533333333333p+5; 0x1.9533333333333p+5; 0x1.9533333333333p+5; 0x1.9533333333333p+5; 0x1.9533333333333p+5].
(* test/data/cs-dc.csv 'lower_band' *)
Definition d082 : list float := [nan; nan; nan; nan; nan; nan; nan; nan; nan; nan; nan; nan; nan; nan; nan; nan; nan; nan; nan; 0x1.7e51eb851eb85p+5; 0x1.811eb851eb852p+5; 0x1.81eb851eb851fp+5; 0x1.80a3d70a3d70ap+5; 0x1.7d1eb851eb852p+5; 0x1.4c66666666666p+5; 0x1.4c66666666666p+5; 0x1.4c66666666666p+5; 0x1.4c66666666666p+5; 0x1.4c66666666666p+5; 0x1.4c66666666666p+5].
(* test/data/cs-dc.csv 'dc_band_width' *)
Definition d083 : list float := [nan; nan; nan; nan; nan; nan; nan; nan; nan; nan; nan; nan; nan; nan; nan; nan; nan; nan; nan; 0x1.7206430f0d27fp+2; 0x1.4463719d03e4fp+2; 0x1.370cd025a55eap+2; 0x1.4bcec80ad75abp+2; 0x1.84aa8fab5934ap+2; 0x1.266762b556e47p+4; 0x1.277c3afed98f5p+4; 0x1.27e0259a186f9p+4; 0x1.285b7bdf1e890p+4; 0x1.28bf379b4ccd1p+4; 0x1.297022015ca17p+4].
(* test/data/cs-dc.csv 'dc_percentage' *)
Definition d084 : list float := [nan; nan; nan; nan; nan; nan; nan; nan; nan; nan; nan; nan; nan; nan; nan; nan; nan; nan; nan; 0x1.b4cfaa117fe7fp-1; 0x1.bfbeb99fda8c9p-2; 0x1.67098f6739ebap-1; 0x1.16e916e8207bap-3; 0x1.249249245374ep-2; 0x1.1a71a71a07539p-1; 0x1.b25b25b2c5794p-2; 0x1.5df5df5dd1a00p-1; 0x1.5b25b25af55ddp-1; 0x1.8dc8dc8d961d6p-1; 0x1.62762762653d0p-1].
(* test/data/cs-dc2.csv 'high' *)
Definition d085 : list float := [0x1.859999999999ap+5; 0x1.85c28f5c28f5cp+5; 0x1.8733333333333p+5; 0x1.86f5c28f5c28fp+5; 0x1.868f5c28f5c29p+5; 0x1.8866666666666p+5; 0x1.899999999999ap+5; 0x1.8accccccccccdp+5; 0x1.8f5c28f5c28f6p+5; 0x1.91851eb851eb8p+5; 0x1.90f5c28f5c28fp+5; 0x1.8d47ae147ae14p+5; 0x1.8f0a3d70a3d71p+5; 0x1.91851eb851eb8p+5; 0x1.92e147ae147aep+5; 0x1.948f5c28f5c29p+5; 0x1.9533333333333p+5; 0x1.9370a3d70a3d7p+5; 0x1.8d0a3d70a3d71p+5; 0x1.92a3d70a3d70ap+5; 0x1.9251eb851eb85p+5; 0x1.915c28f5c28f6p+5; 0x1.8a8f5c28f5c29p+5; 0x1.8400000000000p+5; 0x1.828f9096bb98cp+5; 0x1.7666666666666p+5; 0x1.7e66666666666p+5; 0x1.831eb851eb852p+5; 0x1.8547ae147ae14p+5; 0x1.8651eb851eb85p+5].
(* test/data/cs-dc2.csv 'low' *)
Definition d086 : list float := [0x1.7e51eb851eb85p+5; 0x1.811eb851eb852p+5; 0x1.831eb851eb852p+5; 0x1.82f5c28f5c28fp+5; 0x1.81eb851eb851fp+5; 0x1.85147ae147ae1p+5; 0x1.87851eb851eb8p+5; 0x1.86e147ae147aep+5; 0x1.8c00000000000p+5; 0x1.8ef5c28f5c28fp+5; 0x1.899999999999ap+5; 0x1.8733333333333p+5; 0x1.8b70a3d70a3d7p+5; 0x1.8dccccccccccdp+5; 0x1.8a147ae147ae1p+5; 0x1.90b851eb851ecp+5; 0x1.9266666666666p+5; 0x1.89ae147ae147bp+5; 0x1.87d70a3d70a3dp+5; 0x1.8ce147ae147aep+5; 0x1.899999999999ap+5; 0x1.8b70a3d70a3d7p+5; 0x1.80a3d70a3d70ap+5; 0x1.7d1eb851eb852p+5; 0x1.4c66666666666p+5; 0x1.624432ca57a78p+5; 0x1.7a7ae147ae148p+5; 0x1.799999999999ap+5; 0x1.7f33333333333p+5; 0x1.7dd73eab367a1p+5].
(* test/data/cs-dc2.csv 'close' *)
Definition d087 : list float := [0x1.8147ae147ae14p+5; 0x1.84e147ae147aep+5; 0x1.8600000000000p+5; 0x1.850a3d70a3d71p+5; 0x1.85eb851eb851fp+5; 0x1.883d70a3d70a4p+5; 0x1.888f5c28f5c29p+5; 0x1.8a8f5c28f5c29p+5; 0x1.8f47ae147ae14p+5; 0x1.910a3d70a3d71p+5; 0x1.8c3d70a3d70a4p+5; 0x1.8c00000000000p+5; 0x1.8e00000000000p+5; 0x1.903d70a3d70a4p+5; 0x1.927ae147ae148p+5; 0x1.9428f5c28f5c3p+5; 0x1.9347ae147ae14p+5; 0x1.8ab851eb851ecp+5; 0x1.8af5c28f5c28fp+5; 0x1.91d70a3d70a3dp+5; 0x1.89e6666666666p+5; 0x1.8f70a3d70a3d7p+5; 0x1.8370a3d70a3d7p+5; 0x1.8400000000000p+5; 0x1.748f5c28f5c29p+5; 0x1.6b47ae147ae14p+5; 0x1.7e28f5c28f5c3p+5; 0x1.7dc28f5c28f5cp+5; 0x1.84f5c28f5c28fp+5; 0x1.7eccccccccccdp+5].
(* test/data/cs-dc2.csv 'middle_band' *)
Definition d088 : list float := [nan; nan; nan; nan; nan; nan; nan; nan; nan; nan; nan; nan; nan; nan; nan; nan; nan; nan; nan; nan; 0x1.89c28f5c28f5cp+5; 0x1.8b33333333333p+5; 0x1.8b9999999999ap+5; 0x1.8af5c28f5c28fp+5; 0x1.8933333333333p+5; 0x1.70ccccccccccdp+5; 0x1.70ccccccccccdp+5; 0x1.70ccccccccccdp+5; 0x1.70ccccccccccdp+5; 0x1.70ccccccccccdp+5].
(* test/data/cs-dc2.csv 'upper_band' *)
Definition d089 : list float := [nan; nan; nan; nan; nan; nan; nan; nan; nan; nan; nan; nan; nan; nan; nan; nan; nan; nan; nan; nan; 0x1.9533333333333p+5; 0x1.9533333333333p+5; 0x1.9533333333333p+5; 0x1.9533333333333p+5; 0x1.9533333333333p+5; 0x1.9533333333333p+5; 0x1.9533333333333p+5; 0x1.9533333333333p+5; 0x1.9533333333333p+5; 0x1.9533333333333p+5].
(* test/data/cs-dc2.csv 'lower_band' *)
Definition d090 : list float := [nan; nan; nan; nan; nan; nan; nan; nan; nan; nan; nan; nan; nan; nan; nan; nan; nan; nan; nan; nan; 0x1.7e51eb851eb85p+5; 0x1.811eb851eb852p+5; 0x1.81eb851eb851fp+5; 0x1.80a3d70a3d70ap+5; 0x1.7d1eb851eb852p+5; 0x1.4c66666666666p+5; 0x1.4c66666666666p+5; 0x1.4c66666666666p+5; 0x1.4c66666666666p+5; 0x1.4c66666666666p+5].
(* test/data/cs-dc2.csv 'dc_band_width' *)
Definition d091 : list float := [nan; nan; nan; nan; nan; nan; nan; nan; nan; nan; nan; nan; nan; nan; nan; nan; nan; nan; nan; nan; 0x1.7206430f0d27fp+2; 0x1.4463719d03e4fp+2; 0x1.370cd025a55eap+2; 0x1.4bcec80ad75abp+2; 0x1.84aa8fab5934ap+2; 0x1.266762b556e47p+4; 0x1.277c3afed98f5p+4; 0x1.27e0259a186f9p+4; 0x1.285b7bdf1e890p+4; 0x1.28bf379b4ccd1p+4].
(* test/data/cs-dc2.csv 'dc_percentage' *)
Definition d092 : list float := [nan; nan; nan; nan; nan; nan; nan; nan; nan; nan; nan; nan; nan; nan; nan; nan; nan; nan; nan; nan; 0x1.b4cfaa117fe7fp-1; 0x1.bfbeb99fda8c9p-2; 0x1.67098f6739ebap-1; 0x1.16e916e8207bap-3; 0x1.249249245374ep-2; 0x1.1a71a71a07539p-1; 0x1.b25b25b2c5794p-2; 0x1.5df5df5dd1a00p-1; 0x1.5b25b25af55ddp-1; 0x1.8dc8dc8d961d6p-1].
(* test/data/cs-kc.csv 'High' *)
Definition d093 : list float := [0x1.859999999999ap+5; 0x1.85c28f5c28f5cp+5; 0x1.8733333333333p+5; 0x1.86f5c28f5c28fp+5; 0x1.868f5c28f5c29p+5; 0x1.8866666666666p+5; 0x1.899999999999ap+5; 0x1.8accccccccccdp+5; 0x1.8f5c28f5c28f6p+5; 0x1.91851eb851eb8p+5; 0x1.90f5c28f5c28fp+5; 0x1.8d47ae147ae14p+5; 0x1.8f0a3d70a3d71p+5; 0x1.91851eb851eb8p+5; 0x1.92e147ae147aep+5; 0x1.948f5c28f5c29p+5; 0x1.9533333333333p+5; 0x1.9370a3d70a3d7p+5; 0x1.8d0a3d70a3d71p+5; 0x1.92a3d70a3d70ap+5; 0x1.9251eb851eb85p+5; 0x1.915c28f5c28f6p+5; 0x1.8a8f5c28f5c29p+5; 0x1.8400000000000p+5; 0x1.828f9096bb98cp+5; 0x1.7666666666666p+5; 0x1.7e66666666666p+5; 0x1.831eb851eb852p+5; 0x1.8547ae147ae14p+5; 0x1.8651eb851eb85p+5].
(* test/data/cs-kc.csv 'Low' *)
Definition d094 : list float := [0x1.7e51eb851eb85p+5; 0x1.811eb851eb852p+5; 0x1.831eb851eb852p+5; 0x1.82f5c28f5c28fp+5; 0x1.81eb851eb851fp+5; 0x1.85147ae147ae1p+5; 0x1.87851eb851eb8p+5; 0x1.86e147ae147aep+5; 0x1.8c00000000000p+5; 0x1.8ef5c28f5c28fp+5; 0x1.899999999999ap+5; 0x1.8733333333333p+5; 0x1.8b70a3d70a3d7p+5; 0x1.8dccccccccccdp+5; 0x1.8a147ae147ae1p+5; 0x1.90b851eb851ecp+5; 0x1.9266666666666p+5; 0x1.89ae147ae147bp+5; 0x1.87d70a3d70a3dp+5; 0x1.8ce147ae147aep+5; 0x1.899999999999ap+5; 0x1.8b70a3d70a3d7p+5; 0x1.80a3d70a3d70ap+5; 0x1.7d1eb851eb852p+5; 0x1.4c66666666666p+5; 0x1.624432ca57a78p+5; 0x1.7a7ae147ae148p+5; 0x1.799999999999ap+5; 0x1.7f33333333333p+5; 0x1.7dd73eab367a1p+5].
(* test/data/cs-kc.csv 'Close' *)
Definition d095 : list float := [0x1.8147ae147ae14p+5; 0x1.84e147ae147aep+5; 0x1.8600000000000p+5; 0x1.850a3d70a3d71p+5; 0x1.85eb851eb851fp+5; 0x1.883d70a3d70a4p+5; 0x1.888f5c28f5c29p+5; 0x1.8a8f5c28f5c29p+5; 0x1.8f47ae147ae14p+5; 0x1.910a3d70a3d71p+5; 0x1.8c3d70a3d70a4p+5; 0x1.8c00000000000p+5; 0x1.8e00000000000p+5; 0x1.903d70a3d70a4p+5; 0x1.927ae147ae148p+5; 0x1.9428f5c28f5c3p+5; 0x1.9347ae147ae14p+5; 0x1.8ab851eb851ecp+5; 0x1.8af5c28f5c28fp+5; 0x1.91d70a3d70a3dp+5; 0x1.89e6666666666p+5; 0x1.8f70a3d70a3d7p+5; 0x1.8370a3d70a3d7p+5; 0x1.8170a3d70a3d7p+5; 0x1.748f5c28f5c29p+5; 0x1.6b47ae147ae14p+5; 0x1.7e28f5c28f5c3p+5; 0x1.7dc28f5c28f5cp+5; 0x1.84f5c28f5c28fp+5; 0x1.7eccccccccccdp+5].
(* test/data/cs-kc.csv 'middle_band' *)
Definition d096 : list float := [0x1.8147ae147ae14p+5; 0x1.819f7390d2a66p+5; 0x1.820a2b9b6941fp+5; 0x1.825351e07b065p+5; 0x1.82aaf53bbdd13p+5; 0x1.8332d03977139p+5; 0x1.83b58837e4aa1p+5; 0x1.845c903678945p+5; 0x1.8566c3d1b5c05p+5; 0x1.868286425eb65p+5; 0x1.870e3b0eb3508p+5; 0x1.8786c7b7f791dp+5; 0x1.88249c511cf17p+5; 0x1.88ea05df1649bp+5; 0x1.89d33f56c337ep+5; 0x1.8acf3854d6a98p+5; 0x1.8b9dbd7347d3ap+5; 0x1.8b87e3f8a2ff7p+5; 0x1.8b79f92b900f1p+5; 0x1.8c151f5e06f8dp+5; 0x1.8bdfe92e100fbp+5; 0x1.8c36d662ba2c9p+5; 0x1.8b60e9f3e65eep+5; 0x1.8a6e9a21e9c96p+5; 0x1.8859574727e0fp+5; 0x1.85949c7f4829fp+5; 0x1.84dfb1305b22fp+5; 0x1.84324040b7e19p+5; 0x1.8444def2dfe7dp+5; 0x1.83bf87e30ed97p+5].
(* test/data/cs-kc.csv 'upper_band' *)
Definition d097 : list float := [nan; nan; nan; nan; nan; nan; nan; nan; nan; 0x1.8ec61bc364db2p+5; 0x1.8ffb2f2dd47dfp+5; 0x1.90c688cdd6f72p+5; 0x1.912fe8d05184fp+5; 0x1.91cc4180ad07dp+5; 0x1.93949df78d726p+5; 0x1.945b75f1d6655p+5; 0x1.94c4eaa98a259p+5; 0x1.95b876224d473p+5; 0x1.95afed5b4d26ap+5; 0x1.96cee5a191692p+5; 0x1.97459266c0e0cp+5; 0x1.97f6af326bbe2p+5; 0x1.98e9bc7162578p+5; 0x1.97fd32b5aa414p+5; 0x1.9f61e908ffbd7p+5; 0x1.9e565d335a305p+5; 0x1.9efa9d1600dc9p+5; 0x1.9d984de777054p+5; 0x1.9ca1be2dcf846p+5; 0x1.9b5ed9c3ae8bdp+5].
(* test/data/cs-kc.csv 'lower_band' *)
Definition d098 : list float := [nan; nan; nan; nan; nan; nan; nan; nan; nan; 0x1.7e3ef0c158917p+5; 0x1.7e2146ef92230p+5; 0x1.7e4706a2182c7p+5; 0x1.7f194fd1e85dep+5; 0x1.8007ca3d7f8b9p+5; 0x1.8011e0b5f8fd7p+5; 0x1.8142fab7d6edcp+5; 0x1.8276903d0581ap+5; 0x1.815751cef8b6ep+5; 0x1.814404fbd2f78p+5; 0x1.815b591a7c887p+5; 0x1.807a3ff55f3dcp+5; 0x1.8076fd93089a2p+5; 0x1.7dd817766a657p+5; 0x1.7ce0018e2950ap+5; 0x1.7150c5855003ap+5; 0x1.6cd2dbcb36239p+5; 0x1.6ac4c54ab5688p+5; 0x1.6acc3299f8bddp+5; 0x1.6be7ffb7f04c3p+5; 0x1.6c2036026f271p+5].
(* test/data/cs-kc.csv 'kc_band_width' *)
Definition d099 : list float := [nan; nan; nan; nan; nan; nan; nan; nan; nan; 0x1.0edfe560f5ecbp+2; 0x1.2426eac165a1bp+2; 0x1.2e5fedc5849ddp+2; 0x1.273605dec4cf8p+2; 0x1.2167e48b04807p+2; 0x1.3d10d5b5d48dbp+2; 0x1.358c00390ae39p+2; 0x1.2824862e7a334p+2; 0x1.49c17641fba30p+2; 0x1.4a7b4a2226e03p+2; 0x1.5a9dd14f710a1p+2; 0x1.708218afb5760p+2; 0x1.7b92c5a510454p+2; 0x1.b62a476f5de47p+2; 0x1.b7f2d39408ad7p+2; 0x1.77b8e3a14f9b7p+3; 0x1.96b422c1f6dafp+3; 0x1.ada20fc4ef07ep+3; 0x1.a2bc21ef3e10ep+3; 0x1.9194f514bf7fbp+3; 0x1.85e663f242d31p+3].
(* test/data/cs-kc.csv 'kc_percentage' *)
Definition d100 : list float := [nan; nan; nan; nan; nan; nan; nan; nan; nan; 0x1.231994a695ab8p+0; 0x1.94b269eb9e4cap-1; 0x1.7bd205da802bcp-1; 0x1.a5c92aa93c730p-1; 0x1.d31b6c5193c4cp-1; 0x1.e31ea737a15dep-1; 0x1.fab5f41f1f75bp-1; 0x1.d6593df60f235p-1; 0x1.d74245f23dfabp-2; 0x1.e61a66cba083cp-2; 0x1.896b6265db0e2p-1; 0x1.a74a9aa39ce23p-2; 0x1.4648de86acaebp-1; 0x1.a760c4b18d65bp-3; 0x1.58ce3f9a72fe1p-3; 0x1.207b003849718p-4; (-0x1.fecbf0f01cd20p-6); 0x1.7c528acbd24f4p-2; 0x1.7e40ee353bf1dp-2; 0x1.0742b88ee1b69p-1; 0x1.94c06037353bfp-2].
(* test/data/cs-kc.csv 'kc_high_indicator' *)
Definition d101 : list float := [nan; nan; nan; nan; nan; nan; nan; nan; nan; 0x1.0000000000000p+0; 0x0.0p+0; 0x0.0p+0; 0x0.0p+0; 0x0.0p+0; 0x0.0p+0; 0x0.0p+0; 0x0.0p+0; 0x0.0p+0; 0x0.0p+0; 0x0.0p+0; 0x0.0p+0; 0x0.0p+0; 0x0.0p+0; 0x0.0p+0; 0x0.0p+0; 0x0.0p+0; 0x0.0p+0; 0x0.0p+0; 0x0.0p+0; 0x0.0p+0].
(* test/data/cs-kc.csv 'kc_low_indicator' *)
Definition d102 : list float := [nan; nan; nan; nan; nan; nan; nan; nan; nan; 0x0.0p+0; 0x0.0p+0; 0x0.0p+0; 0x0.0p+0; 0x0.0p+0; 0x0.0p+0; 0x0.0p+0; 0x0.0p+0; 0x0.0p+0; 0x0.0p+0; 0x0.0p+0; 0x0.0p+0; 0x0.0p+0; 0x0.0p+0; 0x0.0p+0; 0x0.0p+0; 0x1.0000000000000p+0; 0x0.0p+0; 0x0.0p+0; 0x0.0p+0; 0x0.0p+0].
(* test/data/cs-ui.csv 'Close' *)
Definition d103 : list float := [0x1.8e947ae147ae1p+7; 0x1.8e051eb851eb8p+7; 0x1.8c947ae147ae1p+7; 0x1.8cccccccccccdp+7; 0x1.91ae147ae147bp+7; 0x1.9270a3d70a3d7p+7; 0x1.9100000000000p+7; 0x1.8d4cccccccccdp+7; 0x1.8a80000000000p+7; 0x1.8766666666666p+7; 0x1.8b8a3d70a3d71p+7; 0x1.876147ae147aep+7; 0x1.85bd70a3d70a4p+7; 0x1.8628f5c28f5c3p+7].
(* test/data/cs-ui.csv 'ulcer_index' *)
Definition d104 : list float := [nan; nan; nan; nan; nan; nan; nan; nan; nan; nan; nan; nan; nan; 0x1.c2ca07601b9e9p+0].
(* test/data/cs-obv.csv 'Close' *)
Definition d105 : list float := [0x1.aa147ae147ae1p+5; 0x1.aa66666666666p+5; 0x1.aa8f5c28f5c29p+5; 0x1.adc28f5c28f5cp+5; 0x1.b1851eb851eb8p+5; 0x1.af5c28f5c28f6p+5; 0x1.b533333333333p+5; 0x1.b4ccccccccccdp+5; 0x1.b1ae147ae147bp+5; 0x1.b43d70a3d70a4p+5; 0x1.ae51eb851eb85p+5; 0x1.ad47ae147ae14p+5; 0x1.ac7ae147ae148p+5; 0x1.ac8f5c28f5c29p+5; 0x1.af851eb851eb8p+5; 0x1.aa28f5c28f5c3p+5; 0x1.acccccccccccdp+5; 0x1.ad33333333333p+5; 0x1.acf5c28f5c28fp+5; 0x1.aa28f5c28f5c3p+5; 0x1.ab851eb851eb8p+5; 0x1.aa3d70a3d70a4p+5; 0x1.a91eb851eb852p+5; 0x1.aa7ae147ae148p+5; 0x1.b0b851eb851ecp+5; 0x1.b0a3d70a3d70ap+5; 0x1.b0147ae147ae1p+5; 0x1.b15c28f5c28f6p+5; 0x1.b1eb851eb851fp+5; 0x1.b39999999999ap+5].
(* test/data/cs-obv.csv 'Volume' *)
Definition d106 : list float := [nan; 0x1.0040000000000p+13; 0x1.fa40000000000p+12; 0x1.0360000000000p+13; 0x1.1620000000000p+13; 0x1.1f80000000000p+13; 0x1.9fa0000000000p+13; 0x1.41e0000000000p+13; 0x1.3560000000000p+13; 0x1.3ba0000000000p+13; 0x1.6120000000000p+13; 0x1.89c0000000000p+13; 0x1.4e60000000000p+13; 0x1.6760000000000p+13; 0x1.73e0000000000p+14; 0x1.c840000000000p+13; 0x1.6da0000000000p+13; 0x1.4500000000000p+13; 0x1.28e0000000000p+13; 0x1.b260000000000p+13; 0x1.4500000000000p+13; 0x1.0680000000000p+12; 0x1.54a0000000000p+13; 0x1.1300000000000p+14; 0x1.17b0000000000p+14; 0x1.edc0000000000p+13; 0x1.3ec0000000000p+13; 0x1.0fe0000000000p+13; 0x1.f400000000000p+13; 0x1.86a0000000000p+13].
(* test/data/cs-obv.csv 'OBV' *)
Definition d107 : list float := [nan; 0x1.0040000000000p+13; 0x1.fd60000000000p+13; 0x1.8060000000000p+14; 0x1.05b8000000000p+15; 0x1.7bb0000000000p+14; 0x1.25c0000000000p+15; 0x1.aa90000000000p+14; 0x1.0fe0000000000p+14; 0x1.adb0000000000p+14; 0x1.fa40000000000p+13; 0x1.c200000000000p+11; (-0x1.bbc0000000000p+12); 0x1.1300000000000p+12; 0x1.b8a0000000000p+14; 0x1.a900000000000p+13; 0x1.8b50000000000p+14; 0x1.16e8000000000p+15; 0x1.9960000000000p+14; 0x1.8060000000000p+13; 0x1.62b0000000000p+14; 0x1.2110000000000p+14; 0x1.db00000000000p+12; 0x1.89c0000000000p+14; 0x1.50b8000000000p+15; 0x1.aa90000000000p+14; 0x1.0b30000000000p+14; 0x1.9320000000000p+14; 0x1.4690000000000p+15; 0x1.a838000000000p+15].
(* test/data/cs-fi.csv 'Close' *)
Definition d108 : list float := [0x1.ca8f5c28f5c29p+3; 0x1.c75c28f5c28f6p+3; 0x1.bf5c28f5c28f6p+3; 0x1.beb851eb851ecp+3; 0x1.bdc28f5c28f5cp+3; 0x1.bae147ae147aep+3; 0x1.bfae147ae147bp+3; 0x1.c9eb851eb851fp+3; 0x1.d051eb851eb85p+3; 0x1.ceb851eb851ecp+3; 0x1.d3851eb851eb8p+3; 0x1.cf5c28f5c28f6p+3; 0x1.d0f5c28f5c28fp+3; 0x1.d1eb851eb851fp+3; 0x1.c800000000000p+3; 0x1.cd70a3d70a3d7p+3; 0x1.c7ae147ae147bp+3; 0x1.c6147ae147ae1p+3; 0x1.d000000000000p+3; 0x1.c8a3d70a3d70ap+3; 0x1.d666666666666p+3; 0x1.de66666666666p+3; 0x1.d5c28f5c28f5cp+3; 0x1.d8a3d70a3d70ap+3; 0x1.d5c28f5c28f5cp+3; 0x1.e4ccccccccccdp+3; 0x1.ffae147ae147bp+3; 0x1.0451eb851eb85p+4; 0x1.0051eb851eb85p+4; 0x1.011eb851eb852p+4].
(* test/data/cs-fi.csv 'Volume' *)
Definition d109 : list float := [nan; 0x1.6416000000000p+15; 0x1.02ed000000000p+16; 0x1.9462000000000p+15; 0x1.0edd000000000p+16; 0x1.453e000000000p+15; 0x1.1f1b000000000p+16; 0x1.b106000000000p+15; 0x1.dd34000000000p+15; 0x1.045a000000000p+15; 0x1.322e000000000p+15; 0x1.8f70000000000p+15; 0x1.6b52000000000p+15; 0x1.5c24000000000p+15; 0x1.7d5e000000000p+15; 0x1.0506000000000p+15; 0x1.783a000000000p+15; 0x1.517e000000000p+15; 0x1.659a000000000p+15; 0x1.a884000000000p+15; 0x1.bae8000000000p+15; 0x1.e426000000000p+15; 0x1.41f8000000000p+15; 0x1.d312000000000p+15; 0x1.5f74000000000p+15; 0x1.b4f2000000000p+15; 0x1.3d9d800000000p+17; 0x1.20ba000000000p+16; 0x1.22f5000000000p+16; 0x1.9786000000000p+15].
(* test/data/cs-fi.csv 'FI' *)
Definition d110 : list float := [nan; (-0x1.1cde666666666p+12); (-0x1.88217c579f234p+12); (-0x1.595aeb4fa4830p+12); (-0x1.3a97996b7670ap+12); (-0x1.2f1a9ae924f22p+12); (-0x1.42bc023e9ea14p+11); 0x1.40c50f535a1a2p+8; 0x1.f9095015c2092p+10; 0x1.75612014727ddp+10; 0x1.08fee1dc93ea3p+11; 0x1.b1cbe4bb001bbp+9; 0x1.0cf518e325d4ap+10; 0x1.1647a915379fbp+10; (-0x1.2ded174c4cdfbp+10); (-0x1.bf87d8d94a899p+7); (-0x1.6587ca1059ea5p+10); (-0x1.7f988151a4378p+10); 0x1.63f3cc01cbb22p+9; (-0x1.25cbfede97d07p+10); 0x1.35668fd7e4580p+11; 0x1.0eedab5c39bccp+12; 0x1.09bf7a9c12f0ap+11; 0x1.43ddf4107314dp+11; 0x1.9a9a4c165907ep+10; 0x1.42b037ccc0379p+12; 0x1.760ee189374bcp+14; 0x1.6ed147e521577p+14; 0x1.10d986c4c5975p+14; 0x1.df62c9c4da900p+13].
(* test/data/cs-easeofmovement.csv 'High' *)
Definition d111 : list float := [0x1.fdeb851eb851fp+5; 0x1.020a3d70a3d71p+6; 0x1.0247ae147ae14p+6; 0x1.013d70a3d70a4p+6; 0x1.fb70a3d70a3d7p+5; 0x1.f6ccccccccccdp+5; 0x1.f59999999999ap+5; 0x1.f970a3d70a3d7p+5; 0x1.f3c28f5c28f5cp+5; 0x1.00a3d70a3d70ap+6; 0x1.01851eb851eb8p+6; 0x1.038f5c28f5c29p+6; 0x1.0500000000000p+6; 0x1.02c28f5c28f5cp+6; 0x1.010a3d70a3d71p+6; 0x1.020a3d70a3d71p+6; 0x1.fbae147ae147bp+5; 0x1.f5851eb851eb8p+5; 0x1.fc28f5c28f5c3p+5; 0x1.fc28f5c28f5c3p+5; 0x1.fdeb851eb851fp+5; 0x1.0251eb851eb85p+6; 0x1.053d70a3d70a4p+6; 0x1.0466666666666p+6; 0x1.fd70a3d70a3d7p+5; 0x1.fd47ae147ae14p+5; 0x1.f79999999999ap+5; 0x1.fdd70a3d70a3dp+5; 0x1.03f5c28f5c28fp+6; 0x1.053d70a3d70a4p+6].
(* test/data/cs-easeofmovement.csv 'Low' *)
Definition d112 : list float := [0x1.f50a3d70a3d71p+5; 0x1.feccccccccccdp+5; 0x1.fe7ae147ae148p+5; 0x1.f4f5c28f5c28fp+5; 0x1.f5d70a3d70a3dp+5; 0x1.ef9999999999ap+5; 0x1.f07ae147ae148p+5; 0x1.f5851eb851eb8p+5; 0x1.ec51eb851eb85p+5; 0x1.f9ae147ae147bp+5; 0x1.fef5c28f5c28fp+5; 0x1.0128f5c28f5c3p+6; 0x1.01eb851eb851fp+6; 0x1.fd33333333333p+5; 0x1.fd70a3d70a3d7p+5; 0x1.f8f5c28f5c28fp+5; 0x1.f400000000000p+5; 0x1.eee147ae147aep+5; 0x1.f47ae147ae148p+5; 0x1.f79999999999ap+5; 0x1.f50a3d70a3d71p+5; 0x1.fb1eb851eb852p+5; 0x1.02e147ae147aep+6; 0x1.00d70a3d70a3dp+6; 0x1.f4147ae147ae1p+5; 0x1.f466666666666p+5; 0x1.f133333333333p+5; 0x1.f7c28f5c28f5cp+5; 0x1.fd1eb851eb852p+5; 0x1.0266666666666p+6].
(* test/data/cs-easeofmovement.csv 'Volume' *)
Definition d113 : list float := [0x1.eb02940000000p+24; 0x1.162e340000000p+25; 0x1.87f1440000000p+25; 0x1.4411a20000000p+25; 0x1.c232b00000000p+24; 0x1.f90b680000000p+24; 0x1.d295280000000p+24; 0x1.1052b40000000p+25; 0x1.7bb3640000000p+25; 0x1.557dd00000000p+25; 0x1.fe08600000000p+24; 0x1.e5145a0000000p+23; 0x1.1a67ae0000000p+25; 0x1.364dba0000000p+25; 0x1.0fd0600000000p+25; 0x1.6927bc0000000p+25; 0x1.4aea040000000p+25; 0x1.b7d9140000000p+25; 0x1.edbb400000000p+24; 0x1.a5760c0000000p+24; 0x1.4400bc0000000p+25; 0x1.5334680000000p+25; 0x1.944d280000000p+25; 0x1.3575c80000000p+25; 0x1.7310a20000000p+25; 0x1.b4a1680000000p+25; 0x1.60f13c0000000p+25; 0x1.3fdfae0000000p+25; 0x1.452c180000000p+25; 0x1.20760c0000000p+25].
(* test/data/cs-easeofmovement.csv 'EMV' *)
Definition d114 : list float := [nan; 0x1.cd12e190f67f4p+0; 0x1.e4c3d9b410e93p-7; (-0x1.7138cd192b7dcp+1); (-0x1.d3ad196466424p-1); (-0x1.d9596d6f193d7p+0); (-0x1.56eb3c5726e0fp-5); 0x1.861702364c538p-1; (-0x1.bce452c7c5736p+0); 0x1.c86867bda96e5p+1; 0x1.57ba5afc9d416p-1; 0x1.c158b0dff60e3p+0; 0x1.24e4f7a21eb48p-1; (-0x1.c6f29367c8b38p+0); (-0x1.4d687ea2250c0p-2); (-0x1.d20f9526f6c27p-2); (-0x1.d91f097cf8c67p+0); (-0x1.03d54d7e26e63p+0); 0x1.22846a43a6da0p+1; 0x1.9c12284ba3977p-2; (-0x1.0ba5e98084164p-3); 0x1.12141ea38cc02p+1; 0x1.2592545a39205p+0; (-0x1.946f299d4c1a8p-1); (-0x1.e05a60dced340p+1); 0x1.3dc63ffbffa68p-6; (-0x1.eb679782acdcep-1); 0x1.733d7ee244697p+0; 0x1.873e750a0703cp+1; 0x1.33aac7e1a2ea2p+0].
(* test/data/cs-easeofmovement.csv 'SMA_EMV' *)
Definition d115 : list float := [nan; nan; nan; nan; nan; nan; nan; nan; nan; nan; nan; nan; nan; nan; (-0x1.c54d247e98141p-6); (-0x1.82b6a873263d5p-3); (-0x1.499dc6d874a95p-2); (-0x1.81bdab1bcd101p-3); 0x1.3f9a32237151ep-5; 0x1.9940d0c46cf0bp-3; 0x1.8c424eeb30cc3p-3; 0x1.2b04caeaf556ep-2; 0x1.fe021f3f0a81ep-2; 0x1.7edae09cf47e2p-3; (-0x1.0853f132a181bp-3); (-0x1.03214893dc5a2p-2); (-0x1.732c386d2ed78p-2); (-0x1.0e3cf8c897f8ap-3); 0x1.c10e19c092cf2p-4; 0x1.d2eadd72d11cbp-3].
(* test/data/cs-accum.csv 'High' *)
Definition d116 : list float := [0x1.f2b851eb851ecp+5; 0x1.f066666666666p+5; 0x1.f228f5c28f5c3p+5; 0x1.e651eb851eb85p+5; 0x1.df70a3d70a3d7p+5; 0x1.ee00000000000p+5; 0x1.e000000000000p+5; 0x1.d800000000000p+5; 0x1.d88f5c28f5c29p+5; 0x1.d9c28f5c28f5cp+5; 0x1.d600000000000p+5; 0x1.d533333333333p+5; 0x1.d3c28f5c28f5cp+5; 0x1.d200000000000p+5; 0x1.d2ccccccccccdp+5; 0x1.dee147ae147aep+5; 0x1.dc3d3c3611340p+5; 0x1.f0ccccccccccdp+5; 0x1.f147ae147ae14p+5; 0x1.f55c28f5c28f6p+5; 0x1.f30a3d70a3d71p+5; 0x1.fdd70a3d70a3dp+5; 0x1.feccccccccccdp+5; 0x1.089999999999ap+6; 0x1.055c28f5c28f6p+6; 0x1.09eb851eb851fp+6; 0x1.04eb851eb851fp+6; 0x1.fb33333333333p+5; 0x1.f970a3d70a3d7p+5; 0x1.f59999999999ap+5].
(* test/data/cs-accum.csv 'Low' *)
Definition d117 : list float := [0x1.eaf5c28f5c28fp+5; 0x1.e5851eb851eb8p+5; 0x1.e0ccccccccccdp+5; 0x1.d4e147ae147aep+5; 0x1.d5b22d0e56042p+5; 0x1.dee147ae147aep+5; 0x1.cfc28f5c28f5cp+5; 0x1.d028f5c28f5c3p+5; 0x1.cbd70a3d70a3dp+5; 0x1.d266666666666p+5; 0x1.ce9eecbfb15b5p+5; 0x1.cee147ae147aep+5; 0x1.cf47ae147ae14p+5; 0x1.ceaa9930be0dfp+5; 0x1.cc3d70a3d70a4p+5; 0x1.d4a3d70a3d70ap+5; 0x1.d266666666666p+5; 0x1.d43d70a3d70a4p+5; 0x1.de66666666666p+5; 0x1.e770a3d70a3d7p+5; 0x1.e133333333333p+5; 0x1.f2182a9930be1p+5; 0x1.f800000000000p+5; 0x1.fca3d70a3d70ap+5; 0x1.0047ae147ae14p+6; 0x1.04ccccccccccdp+6; 0x1.f9ae147ae147bp+5; 0x1.ef0a3d70a3d71p+5; 0x1.e8e147ae147aep+5; 0x1.ea00000000000p+5].
(* test/data/cs-accum.csv 'Close' *)
Definition d118 : list float := [0x1.f133333333333p+5; 0x1.e67ae147ae148p+5; 0x1.e39999999999ap+5; 0x1.d970a3d70a3d7p+5; 0x1.d9eb851eb851fp+5; 0x1.e19999999999ap+5; 0x1.d3d70a3d70a3dp+5; 0x1.d1eb851eb851fp+5; 0x1.d5851eb851eb8p+5; 0x1.d533333333333p+5; 0x1.d3c28f5c28f5cp+5; 0x1.d028f5c28f5c3p+5; 0x1.d15c28f5c28f6p+5; 0x1.d08f5c28f5c29p+5; 0x1.d10a3d70a3d71p+5; 0x1.d7851eb851eb8p+5; 0x1.d8ccccccccccdp+5; 0x1.ef5c28f5c28f6p+5; 0x1.eaf5c28f5c28fp+5; 0x1.ed70a3d70a3d7p+5; 0x1.f0b851eb851ecp+5; 0x1.f71eb851eb852p+5; 0x1.fc3d70a3d70a4p+5; 0x1.000a3d70a3d71p+6; 0x1.03147ae147ae1p+6; 0x1.04e147ae147aep+6; 0x1.fa3d70a3d70a4p+5; 0x1.f333333333333p+5; 0x1.ec66666666666p+5; 0x1.f5851eb851eb8p+5].
(* test/data/cs-accum.csv 'Volume' *)
Definition d119 : list float := [0x1.ea90666666666p+12; 0x1.6d6099999999ap+13; 0x1.4a7a74bc6a7f0p+13; 0x1.98190624dd2f2p+13; 0x1.43f6083126e98p+14; 0x1.cef8624dd2f1bp+14; 0x1.14a52d0e56042p+14; 0x1.c5b33f7ced917p+12; 0x1.4755083126e98p+13; 0x1.453b6c8b43958p+12; 0x1.abdbae147ae14p+11; 0x1.ef44ccccccccdp+11; 0x1.fffcf5c28f5c3p+11; 0x1.d6c03126e978dp+11; 0x1.08f55c28f5c29p+12; 0x1.f67fa9fbe76c9p+12; 0x1.b2cb78d4fdf3bp+12; 0x1.1bee353f7ced9p+14; 0x1.5b479374bc6a8p+14; 0x1.c8ac126e978d5p+13; 0x1.80fe1a9fbe76dp+13; 0x1.d4fd851eb851fp+13; 0x1.157d560418937p+13; 0x1.62973f7ced917p+14; 0x1.3e7e83126e979p+13; 0x1.3ad1374bc6a7fp+13; 0x1.261cf5c28f5c3p+13; 0x1.44bd851eb851fp+13; 0x1.16f4189374bc7p+13; 0x1.d239333333333p+12].
(* test/data/cs-accum.csv 'ADLine' *)
Definition d120 : list float := [0x1.2a62631f8a090p+12; (-0x1.2f69e4f765fd9p+12); (-0x1.779449eecbfb1p+13); (-0x1.1d2250b0f27bbp+14); (-0x1.4838f33333333p+14); (-0x1.384f8a2339c0fp+15); (-0x1.7d219d8adab9fp+15); (-0x1.9c618dab9f55ap+15); (-0x1.71a9c6f694467p+15); (-0x1.7b62828f5c28fp+15); (-0x1.70e0e779a6b51p+15); (-0x1.834b5c6a7ef9ep+15); (-0x1.85947d8adab9fp+15); (-0x1.81939dbf487fdp+15); (-0x1.723a79f559b3dp+15); (-0x1.8db5753f7ced9p+15); (-0x1.7d5aa504816f0p+15); (-0x1.fb68c86594af5p+14); (-0x1.88a165aee6320p+14); (-0x1.a82005f06f694p+14); (-0x1.19b1f1c432ca5p+14); (-0x1.3b85e0c49ba5ep+14); (-0x1.193ead77318fcp+14); (-0x1.0296e2eb1c433p+15); (-0x1.f4e0bf141205cp+14); (-0x1.46af0af4f0d84p+15); (-0x1.8b1db3a92a305p+15); (-0x1.a4c0dfd8adabap+15); (-0x1.ccd834fdf3b64p+15); (-0x1.935ed6a161e4fp+15)].
(* test/data/cs-mfi.csv 'High' *)
Definition d121 : list float := [0x1.8d40b780346dcp+4; 0x1.8c2339c0ebee0p+4; 0x1.928240b780347p+4; 0x1.995b573eab368p+4; 0x1.9af34d6a161e5p+4; 0x1.95604189374bcp+4; 0x1.9494467381d7ep+4; 0x1.9207c84b5dcc6p+4; 0x1.946b50b0f27bbp+4; 0x1.962bd3c361134p+4; 0x1.988fc504816f0p+4; 0x1.99ad42c3c9eedp+4; 0x1.9be7d566cf41fp+4; 0x1.9b9652bd3c361p+4; 0x1.9aca57a786c22p+4; 0x1.9720c49ba5e35p+4; 0x1.950ebedfa43fep+4; 0x1.9419ce075f6fdp+4; 0x1.9098c7e28240bp+4; 0x1.901e4f765fd8bp+4; 0x1.94e5c91d14e3cp+4; 0x1.91df3b645a1cbp+4; 0x1.8b05bc01a36e3p+4; 0x1.88cac083126e9p+4; 0x1.845532617c1bep+4; 0x1.845532617c1bep+4; 0x1.8996bb98c7e28p+4; 0x1.87ad42c3c9eedp+4; 0x1.88f3b645a1cacp+4; 0x1.928f5c28f5c29p+4].
(* test/data/cs-mfi.csv 'Low' *)
Definition d122 : list float := [0x1.8520c49ba5e35p+4; 0x1.8996bb98c7e28p+4; 0x1.8c74bc6a7ef9ep+4; 0x1.8f29c779a6b51p+4; 0x1.8ceecbfb15b57p+4; 0x1.90ea4a8c154cap+4; 0x1.8d923a29c779ap+4; 0x1.8bfe5c91d14e4p+4; 0x1.8ed844d013a93p+4; 0x1.90703afb7e910p+4; 0x1.90c1bda5119cep+4; 0x1.90fec56d5cfabp+4; 0x1.988fc504816f0p+4; 0x1.97495182a9931p+4; 0x1.9494467381d7ep+4; 0x1.92aacd9e83e42p+4; 0x1.8eaf4f0d844d0p+4; 0x1.8e86c226809d5p+4; 0x1.8d40b780346dcp+4; 0x1.8b573eab367a1p+4; 0x1.90703afb7e910p+4; 0x1.8572474538ef3p+4; 0x1.845532617c1bep+4; 0x1.7e47ae147ae14p+4; 0x1.7c72b020c49bap+4; 0x1.7b923a29c779ap+4; 0x1.8337b4a2339c1p+4; 0x1.83dab9f559b3dp+4; 0x1.76f3b645a1cacp+4; 0x1.8451eb851eb85p+4].
(* test/data/cs-mfi.csv 'Close' *)
Definition d123 : list float := [0x1.8bfa43fe5c91dp+4; 0x1.8b573eab367a1p+4; 0x1.9098c7e28240bp+4; 0x1.98b851eb851ecp+4; 0x1.9113404ea4a8cp+4; 0x1.91b645a1cac08p+4; 0x1.8e353f7ced917p+4; 0x1.8ff5c28f5c28fp+4; 0x1.90c1bda5119cep+4; 0x1.95604189374bcp+4; 0x1.90ea4a8c154cap+4; 0x1.9720c49ba5e35p+4; 0x1.9909d495182aap+4; 0x1.98e147ae147aep+4; 0x1.967dbf487fcb9p+4; 0x1.95da5119ce076p+4; 0x1.9098c7e28240bp+4; 0x1.8eaf4f0d844d0p+4; 0x1.8e0c49ba5e354p+4; 0x1.8f7b4a2339c0fp+4; 0x1.90c1bda5119cep+4; 0x1.8733333333333p+4; 0x1.891c432ca57a8p+4; 0x1.8059b3d07c84bp+4; 0x1.7e1eb851eb852p+4; 0x1.8337b4a2339c1p+4; 0x1.847dbf487fcb9p+4; 0x1.8549ba5e353f8p+4; 0x1.870a3d70a3d71p+4; 0x1.9000000000000p+4].
(* test/data/cs-mfi.csv 'Volume' *)
Definition d124 : list float := [0x1.24a89374bc6a8p+14; 0x1.7f7deb851eb85p+13; 0x1.81cda7ef9db23p+14; 0x1.1ed66c8b43958p+14; 0x1.66d051eb851ecp+14; 0x1.f17795810624ep+13; 0x1.f6185a1cac083p+13; 0x1.02e1f2b020c4ap+14; 0x1.f495d4fdf3b64p+13; 0x1.316c8d4fdf3b6p+13; 0x1.60b2d916872b0p+14; 0x1.95d55a1cac083p+13; 0x1.54d545a1cac08p+13; 0x1.6a7424dd2f1aap+12; 0x1.ce34624dd2f1bp+12; 0x1.6ba2978d4fdf4p+12; 0x1.bfcb9db22d0e5p+12; 0x1.628e9fbe76c8bp+12; 0x1.5f8bdf3b645a2p+12; 0x1.39f7810624dd3p+12; 0x1.d21174bc6a7f0p+12; 0x1.70b0126e978d5p+13; 0x1.82710e5604189p+13; 0x1.9f76eb851eb85p+13; 0x1.2146f5c28f5c3p+13; 0x1.2ed4d4fdf3b64p+13; 0x1.15328b4395810p+13; 0x1.c00f70a3d70a4p+12; 0x1.62e170a3d70a4p+13; 0x1.a21afdf3b645ap+13].
(* test/data/cs-mfi.csv 'MFI' *)
Definition d125 : list float := [nan; nan; nan; nan; nan; nan; nan; nan; nan; nan; nan; nan; nan; nan; 0x1.8bbb00bcbe61dp+5; 0x1.68e0bf5d78812p+5; 0x1.222d5cfaacd9fp+5; 0x1.c681a36e2eb1cp+4; 0x1.f872ef0ae5365p+4; 0x1.0ef1f8a0902dep+5; 0x1.4a669ad42c3cap+5; 0x1.566d4d4024b34p+5; 0x1.fd49a5657fb6ap+4; 0x1.7c297396d0918p+4; 0x1.a81950331e3a8p+4; 0x1.81299d883ba34p+4; 0x1.6621f4b1ee243p+4; 0x1.62dc28f5c28f6p+4; 0x1.588b780346dc6p+4; 0x1.ed60fe47991bcp+4].
(* test/data/cs-vwap.csv 'High' *)
Definition d126 : list float := [0x1.8d40b780346dcp+4; 0x1.8c2339c0ebee0p+4; 0x1.928240b780347p+4; 0x1.995b573eab368p+4; 0x1.9af34d6a161e5p+4; 0x1.95604189374bcp+4; 0x1.9494467381d7ep+4; 0x1.9207c84b5dcc6p+4; 0x1.946b50b0f27bbp+4; 0x1.962bd3c361134p+4; 0x1.988fc504816f0p+4; 0x1.99ad42c3c9eedp+4; 0x1.9be7d566cf41fp+4; 0x1.9b9652bd3c361p+4; 0x1.9aca57a786c22p+4; 0x1.9720c49ba5e35p+4; 0x1.950ebedfa43fep+4; 0x1.9419ce075f6fdp+4; 0x1.9098c7e28240bp+4; 0x1.901e4f765fd8bp+4; 0x1.94e5c91d14e3cp+4; 0x1.91df3b645a1cap+4; 0x1.8b05bc01a36e3p+4; 0x1.88cac083126e9p+4; 0x1.845532617c1bep+4; 0x1.845532617c1bep+4; 0x1.8996bb98c7e28p+4; 0x1.87ad42c3c9eedp+4; 0x1.88f3b645a1cacp+4; 0x1.928f5c28f5c29p+4].
(* test/data/cs-vwap.csv 'Low' *)
Definition d127 : list float := [0x1.8520c49ba5e35p+4; 0x1.8996bb98c7e28p+4; 0x1.8c74bc6a7ef9ep+4; 0x1.8f29c779a6b51p+4; 0x1.8ceecbfb15b57p+4; 0x1.90ea4a8c154cap+4; 0x1.8d923a29c779ap+4; 0x1.8bfe5c91d14e4p+4; 0x1.8ed844d013a93p+4; 0x1.90703afb7e910p+4; 0x1.90c1bda5119cep+4; 0x1.90fec56d5cfabp+4; 0x1.988fc504816f0p+4; 0x1.97495182a9931p+4; 0x1.9494467381d7ep+4; 0x1.92aacd9e83e42p+4; 0x1.8eaf4f0d844d0p+4; 0x1.8e86c226809d5p+4; 0x1.8d40b780346dcp+4; 0x1.8b573eab367a1p+4; 0x1.90703afb7e910p+4; 0x1.8572474538ef3p+4; 0x1.845532617c1bep+4; 0x1.7e47ae147ae14p+4; 0x1.7c72b020c49bbp+4; 0x1.7b923a29c779ap+4; 0x1.8337b4a2339c1p+4; 0x1.83dab9f559b3dp+4; 0x1.76f3b645a1cacp+4; 0x1.8451eb851eb85p+4].
(* test/data/cs-vwap.csv 'Close' *)
Definition d128 : list float := [0x1.8bfa43fe5c91dp+4; 0x1.8b573eab367a1p+4; 0x1.9098c7e28240bp+4; 0x1.98b851eb851ecp+4; 0x1.9113404ea4a8cp+4; 0x1.91b645a1cac08p+4; 0x1.8e353f7ced917p+4; 0x1.8ff5c28f5c28fp+4; 0x1.90c1bda5119cep+4; 0x1.95604189374bcp+4; 0x1.90ea4a8c154cap+4; 0x1.9720c49ba5e35p+4; 0x1.9909d495182aap+4; 0x1.98e147ae147aep+4; 0x1.967dbf487fcb9p+4; 0x1.95da5119ce076p+4; 0x1.9098c7e28240bp+4; 0x1.8eaf4f0d844d0p+4; 0x1.8e0c49ba5e354p+4; 0x1.8f7b4a2339c0fp+4; 0x1.90c1bda5119cep+4; 0x1.8733333333333p+4; 0x1.891c432ca57a8p+4; 0x1.8059b3d07c84bp+4; 0x1.7e1eb851eb852p+4; 0x1.8337b4a2339c1p+4; 0x1.847dbf487fcb9p+4; 0x1.8549ba5e353f8p+4; 0x1.870a3d70a3d71p+4; 0x1.9000000000000p+4].
(* test/data/cs-vwap.csv 'Volume' *)
Definition d129 : list float := [0x1.24a89374bc6a8p+14; 0x1.7f7deb851eb85p+13; 0x1.81cda7ef9db23p+14; 0x1.1ed66c8b43958p+14; 0x1.66d051eb851ecp+14; 0x1.f17795810624ep+13; 0x1.f6185a1cac083p+13; 0x1.02e1f2b020c4ap+14; 0x1.f495d4fdf3b64p+13; 0x1.316c8d4fdf3b6p+13; 0x1.60b2d916872b1p+14; 0x1.95d55a1cac083p+13; 0x1.54d545a1cac08p+13; 0x1.6a7424dd2f1aap+12; 0x1.ce34624dd2f1bp+12; 0x1.6ba2978d4fdf3p+12; 0x1.bfcb9db22d0e5p+12; 0x1.628e9fbe76c8cp+12; 0x1.5f8bdf3b645a1p+12; 0x1.39f7810624dd3p+12; 0x1.d21174bc6a7efp+12; 0x1.70b0126e978d4p+13; 0x1.82710e5604189p+13; 0x1.9f76eb851eb85p+13; 0x1.2146f5c28f5c3p+13; 0x1.2ed4d4fdf3b64p+13; 0x1.15328b4395811p+13; 0x1.c00f70a3d70a4p+12; 0x1.62e170a3d70a4p+13; 0x1.a21afdf3b645ap+13].
(* test/data/cs-vwap.csv 'vwap' *)
Definition d130 : list float := [0x1.8a1e955e124b9p+4; 0x1.8a7a14f81d094p+4; 0x1.8cdc59fdeee0ap+4; 0x1.8f1048fe4dc4dp+4; 0x1.8ffdfa40289dap+4; 0x1.905e874ab0e8ap+4; 0x1.9056906bd2ffdp+4; 0x1.9039219258973p+4; 0x1.90557b1db1b79p+4; 0x1.908af0629ba0dp+4; 0x1.90e068f7ee623p+4; 0x1.9131a7fb733edp+4; 0x1.91a06b434d6c8p+4; 0x1.91d3096a1b384p+4; 0x1.92b1c6ec8310fp+4; 0x1.93391da9525f4p+4; 0x1.9398e7a1ade52p+4; 0x1.934542b268693p+4; 0x1.9325a1cb86a14p+4; 0x1.9308b626edc39p+4; 0x1.93514b36d565ap+4; 0x1.93017718156d3p+4; 0x1.922e5b03c8f9ep+4; 0x1.907d275be73bcp+4; 0x1.8ea5ca3a71aeep+4; 0x1.8cb7624e978d5p+4; 0x1.8af08b266ace2p+4; 0x1.89e661f0f8233p+4; 0x1.885d42ebcf0a3p+4; 0x1.8842b73d303e9p+4].
(* test/data/cs-vpt.csv 'Close' *)
Definition d131 : list float := [0x1.8bfa43fe5c91dp+4; 0x1.8b573eab367a1p+4; 0x1.9098c7e28240bp+4; 0x1.98b851eb851ecp+4; 0x1.9113404ea4a8cp+4; 0x1.91b645a1cac08p+4; 0x1.8e353f7ced917p+4; 0x1.8ff5c28f5c28fp+4; 0x1.90c1bda5119cep+4; 0x1.95604189374bcp+4; 0x1.90ea4a8c154cap+4; 0x1.9720c49ba5e35p+4; 0x1.9909d495182aap+4; 0x1.98e147ae147aep+4; 0x1.967dbf487fcb9p+4; 0x1.95da5119ce076p+4; 0x1.9098c7e28240bp+4; 0x1.8eaf4f0d844d0p+4; 0x1.8e0c49ba5e354p+4; 0x1.8f7b4a2339c0fp+4; 0x1.90c1bda5119cep+4; 0x1.8733333333333p+4; 0x1.891c432ca57a8p+4; 0x1.8059b3d07c84bp+4; 0x1.7e1eb851eb852p+4; 0x1.8337b4a2339c1p+4; 0x1.847dbf487fcb9p+4; 0x1.8549ba5e353f8p+4; 0x1.870a3d70a3d71p+4; 0x1.9000000000000p+4].
(* test/data/cs-vpt.csv 'Volume' *)
Definition d132 : list float := [0x1.24a89374bc6a8p+14; 0x1.7f7deb851eb85p+13; 0x1.81cda7ef9db23p+14; 0x1.1ed66c8b43958p+14; 0x1.66d051eb851ecp+14; 0x1.f17795810624ep+13; 0x1.f6185a1cac083p+13; 0x1.02e1f2b020c4ap+14; 0x1.f495d4fdf3b64p+13; 0x1.316c8d4fdf3b6p+13; 0x1.60b2d916872b1p+14; 0x1.95d55a1cac083p+13; 0x1.54d545a1cac08p+13; 0x1.6a7424dd2f1aap+12; 0x1.ce34624dd2f1bp+12; 0x1.6ba2978d4fdf3p+12; 0x1.bfcb9db22d0e5p+12; 0x1.628e9fbe76c8cp+12; 0x1.5f8bdf3b645a1p+12; 0x1.39f7810624dd3p+12; 0x1.d21174bc6a7efp+12; 0x1.70b0126e978d4p+13; 0x1.82710e5604189p+13; 0x1.9f76eb851eb85p+13; 0x1.2146f5c28f5c3p+13; 0x1.2ed4d4fdf3b64p+13; 0x1.15328b4395811p+13; 0x1.c00f70a3d70a4p+12; 0x1.62e170a3d70a4p+13; 0x1.a21afdf3b645ap+13].
(* test/data/cs-vpt.csv 'unsmoothed vpt' *)
Definition d133 : list float := [nan; (-0x1.3bc2d476c92f9p+4); 0x1.3488a670e16cdp+8; 0x1.54646f8b34336p+9; 0x1.f6848416e2192p+7; 0x1.1488aa2525c73p+8; 0x1.10c5d28b98461p+7; 0x1.a290db1841c7cp+7; 0x1.e2640e37ed278p+7; 0x1.61d8f30432a99p+8; 0x1.a5d1e3627d80cp+6; 0x1.32b415a625196p+8; 0x1.65e1b4ab98a64p+8; 0x1.63a2ca747f875p+8; 0x1.386e344e5f88fp+8; 0x1.2f4b00e64f75ep+8; 0x1.a50324c5752cep+7; 0x1.6edc2a15da71cp+7; 0x1.5ce44a518b95bp+7; 0x1.811399df76c4bp+7; 0x1.b0af471f5e9bbp+7; (-0x1.04037777a9302p+6); (-0x1.274eaa7c0eed0p+2); (-0x1.2cdfdfbee3480p+8); (-0x1.6297ac8ed1db4p+8); (-0x1.c2a23326459a4p+7); (-0x1.8848623264569p+7); (-0x1.6ae01fdaa0c36p+7); (-0x1.04a870545fc65p+7); 0x1.6078dbdaf7c5fp+7].
(* test/data/cs-vpt.csv '14-smoothed vpt' *)
Definition d134 : list float := [nan; nan; nan; nan; nan; nan; nan; nan; nan; nan; nan; nan; nan; nan; 0x1.14defd17fbe53p+8; 0x1.2bf1c988f70a6p+8; 0x1.24f1481a3d68dp+8; 0x1.016acbf4d92eap+8; 0x1.f7dc6f37079d1p+7; 0x1.ebdc98c1af458p+7; 0x1.f748b35e8694dp+7; 0x1.d019a89884fbbp+7; 0x1.acfc0ce9f64bbp+7; 0x1.4f73eece17bb8p+7; 0x1.0dbb572d078e7p+7; 0x1.837533251f243p+6; 0x1.ca54be6c13878p+5; 0x1.2edd158cf04dep+4; (-0x1.964b5f1e42a49p+3); (-0x1.5c5ae9d0131ebp+4)].

(** /repo/test/unit/momentum.py:51 *)
Example momentum_TestRateOfChangeIndicator_test_roc : agrees 1e-5 5 (roc d000 12 false) d001 = true.
Proof. vm_compute. reflexivity. Qed.
(** /repo/test/unit/momentum.py:84 *)
Example momentum_TestRSIIndicator_test_rsi : agrees 1e-5 5 (rsi d002 14 false) d003 = true.
Proof. vm_compute. reflexivity. Qed.
(** /repo/test/unit/momentum.py:122 *)
Example momentum_TestStochRSIIndicator_test_stochrsi : agrees 1e-5 5 (stochrsi d004 14 3 3 false) d005 = true.
Proof. vm_compute. reflexivity. Qed.
(** /repo/test/unit/momentum.py:165 *)
Example momentum_TestUltimateOscillator_test_uo : agrees 1e-5 5 (ultimate_oscillator d006 d007 d008 7 14 28 0x1.0000000000000p+2 0x1.0000000000000p+1 0x1.0000000000000p+0 false) d009 = true.
Proof. vm_compute. reflexivity. Qed.
(** /repo/test/unit/momentum.py:204 *)
Example momentum_TestStochasticOscillator_test_so : agrees 1e-5 5 (stoch d010 d011 d012 14 3 false) d013 = true.
Proof. vm_compute. reflexivity. Qed.
(** /repo/test/unit/momentum.py:211 *)
Example momentum_TestStochasticOscillator_test_so_signal : agrees 1e-5 5 (stoch_signal d010 d011 d012 14 3 false) d014 = true.
Proof. vm_compute. reflexivity. Qed.
(** /repo/test/unit/momentum.py:256 *)
Example momentum_TestWilliamsRIndicator_test_wr : agrees 1e-5 5 (williams_r d015 d016 d017 14 false) d018 = true.
Proof. vm_compute. reflexivity. Qed.
(** /repo/test/unit/momentum.py:294 *)
Example momentum_TestKAMAIndicator_test_kama : agrees 1e-5 5 (kama d019 10 2 30 false) d020 = true.
Proof. vm_compute. reflexivity. Qed.
(** /repo/test/unit/momentum.py:331 *)
Example momentum_TestTSIIndicator_test_tsi : agrees 0.5e-3 5 (tsi d021 25 13 false) d022 = true.
Proof. vm_compute. reflexivity. Qed.
(** /repo/test/unit/momentum.py:376 *)
Example momentum_TestPercentagePriceOscillator_test_ppo : agrees 1e-5 5 (ppo d023 26 12 9 true) d024 = true.
Proof. vm_compute. reflexivity. Qed.
(** /repo/test/unit/momentum.py:390 *)
Example momentum_TestPercentagePriceOscillator_test_ppo_signal : agrees 1e-5 5 (ppo_signal d023 26 12 9 true) d025 = true.
Proof. vm_compute. reflexivity. Qed.
(** /repo/test/unit/momentum.py:404 *)
Example momentum_TestPercentagePriceOscillator_test_ppo_hist : agrees 1e-5 5 (ppo_hist d023 26 12 9 true) d026 = true.
Proof. vm_compute. reflexivity. Qed.
(** /repo/test/unit/momentum.py:443 *)
Example momentum_TestPercentageVolumeOscillator_test_pvo : agrees 1e-5 5 (pvo d027 26 12 9 true) d028 = true.
Proof. vm_compute. reflexivity. Qed.
(** /repo/test/unit/momentum.py:457 *)
Example momentum_TestPercentageVolumeOscillator_test_pvo_signal : agrees 1e-5 5 (pvo_signal d027 26 12 9 true) d029 = true.
Proof. vm_compute. reflexivity. Qed.
(** /repo/test/unit/momentum.py:471 *)
Example momentum_TestPercentageVolumeOscillator_test_pvo_hist : agrees 1e-5 5 (pvo_hist d027 26 12 9 true) d030 = true.
Proof. vm_compute. reflexivity. Qed.
(** /repo/test/unit/trend.py:54 *)
Example trend_TestADXIndicator_test_adx : agrees 1e-5 5 (adx d031 d032 d033 14 false) d034 = true.
Proof. vm_compute. reflexivity. Qed.
(** /repo/test/unit/trend.py:68 *)
Example trend_TestADXIndicator_test_adx_pos : agrees 1e-5 5 (adx_pos d031 d032 d033 14 false) d035 = true.
Proof. vm_compute. reflexivity. Qed.
(** /repo/test/unit/trend.py:82 *)
Example trend_TestADXIndicator_test_adx_neg : agrees 1e-5 5 (adx_neg d031 d032 d033 14 false) d036 = true.
Proof. vm_compute. reflexivity. Qed.
(** /repo/test/unit/trend.py:120 *)
Example trend_TestMACDIndicator_test_macd : agrees 1e-5 5 (macd d037 26 12 9 false) d038 = true.
Proof. vm_compute. reflexivity. Qed.
(** /repo/test/unit/trend.py:136 *)
Example trend_TestMACDIndicator_test_macd_signal : agrees 1e-5 5 (macd_signal d037 26 12 9 false) d039 = true.
Proof. vm_compute. reflexivity. Qed.
(** /repo/test/unit/trend.py:150 *)
Example trend_TestMACDIndicator_test_macd_diff : agrees 1e-5 5 (macd_diff d037 26 12 9 false) d040 = true.
Proof. vm_compute. reflexivity. Qed.
(** /repo/test/unit/trend.py:189 *)
Example trend_TestCCIIndicator_test_cci : agrees 1e-5 5 (cci d041 d042 d043 20 0x1.eb851eb851eb8p-7 false) d044 = true.
Proof. vm_compute. reflexivity. Qed.
(** /repo/test/unit/trend.py:227 *)
Example trend_TestVortexIndicator_test_vortex_indicator_pos : agrees 1e-5 5 (vortex_indicator_pos d045 d046 d047 14 false) d048 = true.
Proof. vm_compute. reflexivity. Qed.
(** /repo/test/unit/trend.py:241 *)
Example trend_TestVortexIndicator_test_vortex_indicator_neg : agrees 1e-5 5 (vortex_indicator_neg d045 d046 d047 14 false) d049 = true.
Proof. vm_compute. reflexivity. Qed.
(** /repo/test/unit/trend.py:278 *)
Example trend_TestPSARIndicator_test_psar_up : agrees 1e-5 5 (psar_up d050 d051 d052 (rangeindex 30) 0x1.47ae147ae147bp-6 0x1.999999999999ap-3 false) d053 = true.
Proof. vm_compute. reflexivity. Qed.
(** /repo/test/unit/trend.py:285 *)
Example trend_TestPSARIndicator_test_psar_down : agrees 1e-5 5 (psar_down d050 d051 d052 (rangeindex 30) 0x1.47ae147ae147bp-6 0x1.999999999999ap-3 false) d054 = true.
Proof. vm_compute. reflexivity. Qed.
(** /repo/test/unit/trend.py:292 *)
Example trend_TestPSARIndicator_test_psar_up_indicator : agrees 1e-5 5 (psar_up_indicator d050 d051 d052 (rangeindex 30) 0x1.47ae147ae147bp-6 0x1.999999999999ap-3 false) d055 = true.
Proof. vm_compute. reflexivity. Qed.
(** /repo/test/unit/trend.py:299 *)
Example trend_TestPSARIndicator_test_psar_down_indicator : agrees 1e-5 5 (psar_down_indicator d050 d051 d052 (rangeindex 30) 0x1.47ae147ae147bp-6 0x1.999999999999ap-3 false) d056 = true.
Proof. vm_compute. reflexivity. Qed.
(** /repo/test/unit/trend.py:361 *)
Example trend_TestSTCIndicator_test_stc : agrees 1e-5 15 (stc d057 50 23 10 3 3 false) d058 = true.
Proof. vm_compute. reflexivity. Qed.
(** /repo/test/unit/trend.py:368 *)
Example trend_TestSTCIndicator_test_stc2 : agrees 1e-5 5 (stc d057 50 23 10 3 3 false) d058 = true.
Proof. vm_compute. reflexivity. Qed.
(** /repo/test/unit/trend.py:389 *)
Example trend_TestWMAIndicator_test_wma : agrees 1e-5 5 (wma d059 9 false) d060 = true.
Proof. vm_compute. reflexivity. Qed.
(** /repo/test/unit/volatility.py:59 *)
Example volatility_TestAverageTrueRange_test_atr : agrees 1e-5 5 (average_true_range d061 d062 d063 14 false) d064 = true.
Proof. vm_compute. reflexivity. Qed.
(** /repo/test/unit/volatility.py:98 *)
Example volatility_TestAverageTrueRange2_test_atr : agrees 1e-5 5 (average_true_range d065 d066 d067 10 false) d068 = true.
Proof. vm_compute. reflexivity. Qed.
(** /repo/test/unit/volatility.py:135 *)
Example volatility_TestBollingerBands_test_mavg : agrees 1e-5 5 (bollinger_mavg d069 20 0x1.0000000000000p+1 false) d070 = true.
Proof. vm_compute. reflexivity. Qed.
(** /repo/test/unit/volatility.py:142 *)
Example volatility_TestBollingerBands_test_hband : agrees 1e-5 5 (bollinger_hband d069 20 0x1.0000000000000p+1 false) d071 = true.
Proof. vm_compute. reflexivity. Qed.
(** /repo/test/unit/volatility.py:149 *)
Example volatility_TestBollingerBands_test_lband : agrees 1e-5 5 (bollinger_lband d069 20 0x1.0000000000000p+1 false) d072 = true.
Proof. vm_compute. reflexivity. Qed.
(** /repo/test/unit/volatility.py:156 *)
Example volatility_TestBollingerBands_test_wband : agrees 1e-5 5 (bollinger_wband d069 20 0x1.0000000000000p+1 false) d073 = true.
Proof. vm_compute. reflexivity. Qed.
(** /repo/test/unit/volatility.py:163 *)
Example volatility_TestBollingerBands_test_pband : agrees 1e-5 5 (bollinger_pband d069 20 0x1.0000000000000p+1 false) d074 = true.
Proof. vm_compute. reflexivity. Qed.
(** /repo/test/unit/volatility.py:170 *)
Example volatility_TestBollingerBands_test_hband_indicator : agrees 1e-5 5 (bollinger_hband_indicator d069 20 0x1.0000000000000p+1 false) d075 = true.
Proof. vm_compute. reflexivity. Qed.
(** /repo/test/unit/volatility.py:177 *)
Example volatility_TestBollingerBands_test_lband_indicator : agrees 1e-5 5 (bollinger_lband_indicator d069 20 0x1.0000000000000p+1 false) d076 = true.
Proof. vm_compute. reflexivity. Qed.
(** /repo/test/unit/volatility.py:259 *)
Example volatility_TestDonchianChannel_test_mavg : agrees 1e-5 5 (donchian_channel_mband d077 d078 d079 20 0 false) d080 = true.
Proof. vm_compute. reflexivity. Qed.
(** /repo/test/unit/volatility.py:266 *)
Example volatility_TestDonchianChannel_test_hband : agrees 1e-5 5 (donchian_channel_hband d077 d078 d079 20 0 false) d081 = true.
Proof. vm_compute. reflexivity. Qed.
(** /repo/test/unit/volatility.py:273 *)
Example volatility_TestDonchianChannel_test_lband : agrees 1e-5 5 (donchian_channel_lband d077 d078 d079 20 0 false) d082 = true.
Proof. vm_compute. reflexivity. Qed.
(** /repo/test/unit/volatility.py:280 *)
Example volatility_TestDonchianChannel_test_wband : agrees 1e-5 5 (donchian_channel_wband d077 d078 d079 20 0 false) d083 = true.
Proof. vm_compute. reflexivity. Qed.
(** /repo/test/unit/volatility.py:287 *)
Example volatility_TestDonchianChannel_test_pband : agrees 1e-5 5 (donchian_channel_pband d077 d078 d079 20 0 false) d084 = true.
Proof. vm_compute. reflexivity. Qed.
(** /repo/test/unit/volatility.py:355 *)
Example volatility_TestDonchianChannel2_test_mavg : agrees 1e-5 5 (donchian_channel_mband d085 d086 d087 20 1 false) d088 = true.
Proof. vm_compute. reflexivity. Qed.
(** /repo/test/unit/volatility.py:362 *)
Example volatility_TestDonchianChannel2_test_hband : agrees 1e-5 5 (donchian_channel_hband d085 d086 d087 20 1 false) d089 = true.
Proof. vm_compute. reflexivity. Qed.
(** /repo/test/unit/volatility.py:369 *)
Example volatility_TestDonchianChannel2_test_lband : agrees 1e-5 5 (donchian_channel_lband d085 d086 d087 20 1 false) d090 = true.
Proof. vm_compute. reflexivity. Qed.
(** /repo/test/unit/volatility.py:376 *)
Example volatility_TestDonchianChannel2_test_wband : agrees 1e-5 5 (donchian_channel_wband d085 d086 d087 20 1 false) d091 = true.
Proof. vm_compute. reflexivity. Qed.
(** /repo/test/unit/volatility.py:383 *)
Example volatility_TestDonchianChannel2_test_pband : agrees 1e-5 5 (donchian_channel_pband d085 d086 d087 20 1 false) d092 = true.
Proof. vm_compute. reflexivity. Qed.
(** /repo/test/unit/volatility.py:452 *)
Example volatility_TestKeltnerChannel_test_mavg : agrees 1e-5 5 (keltner_channel_mband d093 d094 d095 20 10 false false 0x1.0000000000000p+1) d096 = true.
Proof. vm_compute. reflexivity. Qed.
(** /repo/test/unit/volatility.py:459 *)
Example volatility_TestKeltnerChannel_test_hband : agrees 1e-5 5 (keltner_channel_hband d093 d094 d095 20 10 false false 0x1.0000000000000p+1) d097 = true.
Proof. vm_compute. reflexivity. Qed.
(** /repo/test/unit/volatility.py:466 *)
Example volatility_TestKeltnerChannel_test_lband : agrees 1e-5 5 (keltner_channel_lband d093 d094 d095 20 10 false false 0x1.0000000000000p+1) d098 = true.
Proof. vm_compute. reflexivity. Qed.
(** /repo/test/unit/volatility.py:473 *)
Example volatility_TestKeltnerChannel_test_wband : agrees 1e-5 5 (keltner_channel_wband d093 d094 d095 20 10 false false 0x1.0000000000000p+1) d099 = true.
Proof. vm_compute. reflexivity. Qed.
(** /repo/test/unit/volatility.py:480 *)
Example volatility_TestKeltnerChannel_test_pband : agrees 1e-5 5 (keltner_channel_pband d093 d094 d095 20 10 false false 0x1.0000000000000p+1) d100 = true.
Proof. vm_compute. reflexivity. Qed.
(** /repo/test/unit/volatility.py:487 *)
Example volatility_TestKeltnerChannel_test_hband_indicator : agrees 1e-5 5 (keltner_channel_hband_indicator d093 d094 d095 20 10 false false 0x1.0000000000000p+1) d101 = true.
Proof. vm_compute. reflexivity. Qed.
(** /repo/test/unit/volatility.py:494 *)
Example volatility_TestKeltnerChannel_test_lband_indicator : agrees 1e-5 5 (keltner_channel_lband_indicator d093 d094 d095 20 10 false false 0x1.0000000000000p+1) d102 = true.
Proof. vm_compute. reflexivity. Qed.
(** /repo/test/unit/volatility.py:569 *)
Example volatility_TestUlcerIndex_test_ulcer_index : agrees 1e-5 1 (ulcer_index d103 14 false) d104 = true.
Proof. vm_compute. reflexivity. Qed.
(** /repo/test/unit/volume.py:45 *)
Example volume_TestOnBalanceVolumeIndicator_test_obv : agrees 1e-5 5 (on_balance_volume d105 d106 false) d107 = true.
Proof. vm_compute. reflexivity. Qed.
(** /repo/test/unit/volume.py:82 *)
Example volume_TestForceIndexIndicator_test_fi : agrees 1e-5 5 (force_index d108 d109 13 false) d110 = true.
Proof. vm_compute. reflexivity. Qed.
(** /repo/test/unit/volume.py:120 *)
Example volume_TestEaseOfMovementIndicator_test_ease_of_movement : agrees 1e-5 5 (ease_of_movement d111 d112 d113 14 false) d114 = true.
Proof. vm_compute. reflexivity. Qed.
(** /repo/test/unit/volume.py:134 *)
Example volume_TestEaseOfMovementIndicator_test_sma_ease_of_movement : agrees 1e-5 5 (sma_ease_of_movement d111 d112 d113 14 false) d115 = true.
Proof. vm_compute. reflexivity. Qed.
(** /repo/test/unit/volume.py:172 *)
Example volume_TestAccDistIndexIndicator_test_adl : agrees 1e-5 5 (acc_dist_index d116 d117 d118 d119 false) d120 = true.
Proof. vm_compute. reflexivity. Qed.
(** /repo/test/unit/volume.py:211 *)
Example volume_TestMFIIndicator_test_mfi : agrees 1e-5 5 (money_flow_index d121 d122 d123 d124 14 false) d125 = true.
Proof. vm_compute. reflexivity. Qed.
(** /repo/test/unit/volume.py:249 *)
Example volume_TestVolumeWeightedAveragePrice_test_vwap : agrees 1e-5 5 (volume_weighted_average_price d126 d127 d128 d129 14 false) d130 = true.
Proof. vm_compute. reflexivity. Qed.
(** /repo/test/unit/volume.py:307 *)
Example volume_TestVolumePriceTrendIndicator_test_vpt1 : agrees 1e-5 5 (volume_price_trend d131 d132 false None false) d133 = true.
Proof. vm_compute. reflexivity. Qed.
(** /repo/test/unit/volume.py:321 *)
Example volume_TestVolumePriceTrendIndicator_test_vpt3 : agrees 1e-5 5 (volume_price_trend d131 d132 false (Some 14%Z) false) d134 = true.
Proof. vm_compute. reflexivity. Qed.
