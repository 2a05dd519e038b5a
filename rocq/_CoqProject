-Q theories Verif
theories/GoStr.v
theories/Utf8.v
theories/Codec.v
theories/GoErr.v
theories/Role.v
theories/Name.v
theories/Random.v
theories/CreditCard.v
theories/Qr.v
theories/Regex.v
theories/Email.v
theories/SpecValue.v
theories/RoleFacts.v
theories/EmailFacts.v
theories/RandomFacts.v
theories/QrFacts.v
theories/PropertiesValue.v
theories/Types.v
theories/Json.v
theories/GoTime.v
theories/Env.v
theories/Password.v
theories/ApiKey.v
theories/PublicKey.v
theories/Mfa.v
theories/User.v
theories/Persist.v
theories/Fs.v
theories/Database.v
theories/System.v
theories/UserFacts.v
theories/DbFacts.v
theories/Inv.v
theories/LoadFacts.v
theories/SpecDb.v
theories/AccountFacts.v
theories/SpecCrypto.v
theories/Examples.v
theories/PropertiesAccount.v
theories/SpecAuth.v
theories/CryptoFacts.v
theories/StepFacts.v
theories/PasswordFacts.v
theories/PropertiesPassword.v
theories/ApiKeyFacts.v
theories/PropertiesApiKey.v
theories/SpecKey.v
theories/PublicKeyFacts.v
theories/PropertiesPublicKey.v
theories/SpecMfa.v
theories/TotpFacts.v
theories/MfaFacts.v
theories/WebAuthnFacts.v
theories/TokenFacts.v
theories/TokenUse.v
theories/PropertiesMfa.v
theories/Float.v
theories/PropertiesFloat.v
theories/JsonFacts.v
theories/SpecPersist.v
theories/PersistFacts.v
theories/StoredFacts.v
theories/ReloadFacts.v
theories/TwinFacts.v
theories/ReopenFacts.v
theories/FileFacts.v
theories/OpenFacts.v
theories/PropertiesPersist.v
theories/Conc.v
theories/SpecConc.v
theories/ConcFacts.v
theories/PropertiesConc.v
theories/Method.v
theories/SpecMethod.v
theories/MethodFacts.v
theories/LiveFacts.v
theories/PropertiesMethod.v
theories/SpecPolicy.v
theories/PolicyFacts.v
theories/PropertiesPolicy.v
theories/Message.v
theories/SpecMessage.v
theories/MessageFacts.v
theories/PropertiesMessage.v
theories/WebAuthn.v
theories/SpecLayout.v
theories/LayoutFacts.v
theories/PropertiesLayout.v
theories/SpecWebAuthn.v
theories/WebAuthnJsonFacts.v
theories/PropertiesWebAuthn.v
theories/SpecNumber.v
theories/NumberFacts.v
theories/PropertiesNumber.v
theories/Tag.v
theories/SpecTag.v
theories/TagFacts.v
theories/PropertiesTag.v
theories/SpecRegister.v
theories/RegisterFacts.v
theories/PropertiesRegister.v
theories/SpecIsolation.v
theories/IsolationFacts.v
theories/PropertiesIsolation.v
theories/SpecSecret.v
theories/SecretFacts.v
theories/PropertiesSecret.v
theories/CommuteFacts.v
theories/PropertiesCommute.v
theories/SpecOrder.v
theories/OrderFacts.v
theories/PropertiesOrder.v
theories/UndoFacts.v
theories/PropertiesUndo.v
theories/SpecRead.v
theories/ReadFacts.v
theories/PropertiesRead.v
theories/SpecMeaning.v
theories/MeaningFacts.v
theories/SpellFacts.v
theories/PropertiesMeaning.v
theories/Share.v
theories/SpecShare.v
theories/ShareFacts.v
theories/PropertiesShare.v
theories/SpecIndex.v
theories/IndexFacts.v
theories/PropertiesIndex.v
theories/SpecReveal.v
theories/RevealFacts.v
theories/PropertiesReveal.v
theories/SpecDraw.v
theories/DrawFacts.v
theories/PropertiesDraw.v
theories/SpecJson.v
theories/GrammarFacts.v
theories/OddTimeFacts.v
theories/PropertiesGrammar.v
theories/Hash.v
theories/SpecHash.v
theories/HashFacts.v
theories/Real.v
theories/PropertiesHash.v
theories/Conformance.v
theories/Assert.v
theories/SpecAssert.v
theories/AssertFacts.v
theories/PropertiesAssert.v
theories/SpecRefuse.v
theories/RefuseFacts.v
theories/PropertiesRefuse.v
theories/SpecDefect.v
theories/DefectFacts.v
theories/PropertiesDefect.v
theories/SpecOutage.v
theories/TookFacts.v
theories/SpecLedger.v
theories/LedgerFacts.v
theories/PropertiesLedger.v
theories/SpecShelf.v
theories/ShelfFacts.v
theories/PropertiesShelf.v
theories/Holes.v
theories/SpecHoles.v
theories/HolesFacts.v
theories/HolesAgree.v
theories/PropertiesHoles.v
theories/PropertiesOutage.v
theories/SpecRing.v
theories/RingFacts.v
theories/PropertiesRing.v
theories/SpecPublic.v
theories/PublicEntry.v
theories/PropertiesPublic.v
theories/SpecKeyring.v
theories/KeyringFacts.v
theories/PropertiesKeyring.v
theories/SpecCensus.v
theories/CensusFacts.v
theories/PropertiesCensus.v
theories/SpecGrant.v
theories/GrantFacts.v
theories/PropertiesGrant.v
theories/SpecFactor.v
theories/FactorFacts.v
theories/PropertiesFactor.v
theories/SpecDrawer.v
theories/DrawerFacts.v
theories/PropertiesDrawer.v
theories/SpecReplay.v
theories/ReplayFacts.v
theories/PropertiesReplay.v
theories/SpecDurable.v
theories/DurableFacts.v
theories/PropertiesDurable.v
theories/SpecBackup.v
theories/BackupFacts.v
theories/PropertiesBackup.v
