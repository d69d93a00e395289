-Q theories Verif
theories/PyBase.v
theories/PyFacts.v
theories/Base64.v
theories/Base64Facts.v
theories/Sha1.v
theories/Util.v
theories/UtilFacts.v
theories/UtilFacts2.v
theories/Props_Util.v
theories/Aes.v
theories/AesFacts.v
theories/Fermat.v
theories/ModArith.v
theories/ModFacts.v
theories/Json.v
theories/JsonFacts.v
theories/JsonSpec.v
theories/JsonSpecFacts.v
theories/KeyInfo.v
theories/SymKeys.v
theories/SymFacts.v
theories/Props_Sym.v
theories/Der.v
theories/DerFacts.v
theories/Primes.v
theories/AsymSpec.v
theories/AsymKeys.v
theories/AsymFacts.v
theories/Props_Asym.v
theories/Keys.v
theories/KeysFacts.v
theories/Props_Keys.v
theories/KeyData.v
theories/Keyczar.v
theories/KeyRing.v
theories/KeyczarFacts.v
theories/ErrFacts.v
theories/Props_Keyset.v
theories/Props_Sign.v
theories/Disk.v
theories/Keyczart.v
theories/Golden.v
theories/DiskFacts.v
theories/Props_Disk.v
theories/CrashFacts.v
theories/Props_Tool.v
theories/Props_Cmd.v
theories/Session.v
theories/Props_Session.v
theories/Streams.v
theories/StreamFacts.v
theories/Props_Stream.v
theories/Props_Reflow.v
theories/Py3.v
theories/Props_Py3.v
theories/GenKeySet.v
theories/Props_Gen.v
theories/Props_Der.v
theories/Props_Format.v
theories/Props_Crypter.v
theories/Fault.v
theories/FaultFacts.v
theories/Props_Fault.v
theories/Mock.v
theories/Props_Mock.v
theories/Props_Life.v
theories/AesSpec.v
theories/AesSpecFacts.v
theories/ShaSpec.v
theories/ShaSpecFacts.v
theories/Props_Prim.v
theories/Meta.v
theories/Props_Meta.v
theories/Props_More.v
theories/Sizes.v
theories/Props_Sizes.v
theories/Props_Rand.v
theories/Props_Json.v
theories/Props_Open.v
theories/Steps.v
theories/Props_Steps.v
theories/Props_Rsa.v
theories/Props_While.v
theories/Props_Power.v
theories/Props_Amid.v
theories/Demo1024.v
theories/Props_Span.v
theories/Props_Ber.v
theories/Props_More2.v
theories/Props_More3.v
theories/Cache.v
theories/Props_Cache.v
theories/Backends.v
theories/Props_Back.v
theories/Loose.v
theories/Props_Loose.v
theories/Props_Loose2.v
theories/Props_Session2.v
theories/Props_Resume.v
theories/Props_Errs.v
theories/Props_B64.v
theories/Adaptor.v
theories/Props_Adaptor.v
theories/Props_Unpack.v
theories/Props_Attached.v
theories/Props_Oaep.v
theories/Messages.v
theories/Props_Messages.v
theories/Convert.v
theories/ConvertFacts.v
theories/Props_Convert.v
theories/Unicode.v
theories/Props_Unicode.v
theories/Props_Forged.v
theories/Props_Cases.v
theories/Props_Py3b.v
theories/Props_Convert2.v
theories/Order.v
theories/Props_Order.v
theories/Props_Order2.v
theories/Threads.v
theories/Props_Threads.v
theories/Props_Threads2.v
theories/Props_Threads3.v
theories/Props_Threads4.v
theories/Props_Threads5.v
theories/Props_Forge.v
theories/Props_Forge2.v
theories/Props_Indep.v
theories/Props_Indep2.v
