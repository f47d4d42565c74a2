-Q theories Verif
theories/Rust.v
theories/Calls.v
theories/Model/Common.v
theories/Model/Sha256.v
theories/Model/Hmac.v
theories/Model/Pbkdf2.v
theories/Model/Salsa20.v
theories/Model/Scrypt.v
theories/Model/Aes.v
theories/Model/Pkcs7.v
theories/Model/AesCbc.v
theories/Model/Derives.v
theories/Leak/Ops.v
theories/Leak/Sha256.v
theories/Leak/Hmac.v
theories/Leak/Pbkdf2.v
theories/Leak/Salsa20.v
theories/Leak/Scrypt.v
theories/Leak/Aes.v
theories/Leak/Pkcs7.v
theories/Leak/AesCbc.v
theories/Leak/Calls.v
theories/Leak/Steps.v
theories/Spec/Octets.v
theories/Spec/Hex.v
theories/Spec/Sha256.v
theories/Spec/Hasher.v
theories/Spec/Hmac.v
theories/Spec/Mac.v
theories/Spec/Pbkdf2.v
theories/Spec/Salsa20.v
theories/Spec/Matrix.v
theories/Spec/Scrypt.v
theories/Spec/Aes.v
theories/Spec/BlockCipher.v
theories/Spec/Cbc.v
theories/Spec/Stream.v
theories/Spec/Oracle.v
theories/Spec/Collision.v
theories/Spec/Leakage.v
theories/Proofs/Base.v
theories/Proofs/Bits.v
theories/Proofs/Sha256Core.v
theories/Proofs/Sha256.v
theories/Proofs/Sha256Main.v
theories/Proofs/Hmac.v
theories/Proofs/Pbkdf2.v
theories/Proofs/Salsa20.v
theories/Proofs/Salsa20Perm.v
theories/Proofs/Salsa20Fixed.v
theories/Proofs/Salsa20Sym.v
theories/Proofs/Scrypt.v
theories/Proofs/Gf.v
theories/Proofs/Aes.v
theories/Proofs/Stream.v
theories/Proofs/Pkcs7.v
theories/Proofs/AesCbc.v
theories/Proofs/Messages.v
theories/Proofs/Oracle.v
theories/Proofs/Collision.v
theories/Proofs/KeySchedule.v
theories/Proofs/Leak.v
theories/Proofs/LeakErase.v
theories/Proofs/LeakAgree.v
theories/Proofs/LeakScrypt.v
theories/Proofs/LeakAes.v
theories/Proofs/LeakUnpad.v
theories/Proofs/LeakCalls.v
theories/Proofs/Portable.v
theories/Props/Sha256.v
theories/Props/Hmac.v
theories/Props/Pbkdf2.v
theories/Props/Salsa20.v
theories/Props/Symmetry.v
theories/Props/Scrypt.v
theories/Props/Aes.v
theories/Props/Pkcs7.v
theories/Props/AesCbc.v
theories/Props/Oracle.v
theories/Props/Collision.v
theories/Props/AesKeys.v
theories/Props/Buffering.v
theories/Props/Errors.v
theories/Props/Derives.v
theories/Props/Leak.v
theories/Props/Portable.v
theories/Props/Common.v
theories/Props/Derived.v
theories/Proofs/Cost.v
theories/Props/Repeats.v
theories/Props/Cost.v
theories/Proofs/CostAes.v
theories/Props/CostAes.v
theories/Props/Pbkdf2Counts.v
theories/Spec/Counting.v
theories/Proofs/Count.v
theories/Props/Chance.v
theories/Props/Splice.v
theories/Spec/Survive.v
theories/Unwind/Mem.v
theories/Unwind/Sha256.v
theories/Unwind/Hmac.v
theories/Unwind/Kdf.v
theories/Unwind/Calls.v
theories/Proofs/Unwind.v
theories/Proofs/UnwindKdf.v
theories/Proofs/Panics.v
theories/Props/Panics.v
theories/Props/Unwind.v
theories/Spec/Chosen.v
theories/Spec/Forge.v
theories/Props/Chosen.v
theories/Props/Forge.v
theories/Props/Canonical.v
theories/Spec/Multi.v
theories/Proofs/Multi.v
theories/Props/Multi.v
theories/Spec/Diffusion.v
theories/Proofs/Diffusion.v
theories/Props/Diffusion.v
theories/Spec/Heap.v
theories/Heap/Ops.v
theories/Heap/Scrypt.v
theories/Proofs/Heap.v
theories/Props/Heap.v
theories/Spec/Differential.v
theories/Proofs/Differential.v
theories/Props/Differential.v
theories/Spec/Linear.v
theories/Proofs/Linear.v
theories/Props/Linear.v
theories/Spec/Integral.v
theories/Proofs/Integral.v
theories/Props/Integral.v
theories/Spec/Observed.v
theories/Proofs/LeakCbc.v
theories/Props/LeakCbc.v
theories/Spec/Frugal.v
theories/Proofs/Frugal.v
theories/Props/Frugal.v
theories/Spec/Partner.v
theories/Proofs/Partner.v
theories/Props/Partner.v
theories/Spec/Toggle.v
theories/Proofs/Toggle.v
theories/Props/Toggle.v
theories/Spec/Residue.v
theories/Proofs/Residue.v
theories/Props/Residue.v
theories/Spec/Ambiguous.v
theories/Proofs/Ambiguous.v
theories/Props/Ambiguous.v
theories/Spec/Cached.v
theories/Proofs/Cached.v
theories/Props/Cached.v
theories/Source/Syntax.v
theories/Source/Interp.v
theories/Source/Observe.v
theories/Source/Tree.v
theories/Source/Calls.v
theories/Proofs/SourceBase.v
theories/Proofs/SourceSha256.v
theories/Proofs/SourceHasher.v
theories/Proofs/SourceHmac.v
theories/Proofs/SourcePbkdf2.v
theories/Proofs/SourceSalsa20.v
theories/Proofs/SourceText.v
theories/Props/Source.v
theories/Tests.v
theories/Source/Objects.v
theories/Proofs/SourcePkcs7.v
theories/Proofs/SourceAesRound.v
theories/Proofs/SourceAes.v
theories/Proofs/SourceAesCbc.v
theories/Proofs/SourceObjects.v
theories/Props/SourceCipher.v
theories/Proofs/SourceScrypt.v
theories/Proofs/SourceMeta.v
theories/Proofs/SourceObserve.v
theories/Proofs/SourceFlow.v
theories/Props/SourceScrypt.v
theories/Props/SourceMeta.v
theories/Props/SourceFlow.v
theories/Props/SourceLeaks.v
theories/Props/SourceTogether.v
