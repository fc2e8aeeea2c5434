-Q theories Verif
theories/Base.v
theories/Sys.v
theories/Apdu.v
theories/ApduSpec.v
theories/ApduProofs.v
theories/PropApdu.v
theories/Pin.v
theories/PinProofs.v
theories/Tlv.v
theories/PropPin.v
theories/Applet.v
theories/Pass.v
theories/Oath.v
theories/OathProofs.v
theories/OathCmds.v
theories/OathEff.v
theories/OathSpec.v
theories/OathPres.v
theories/OathHist.v
theories/OathStep.v
theories/OathFacts.v
theories/OathEx.v
theories/PropOath.v
theories/PropOathList.v
theories/PropOathCode.v
theories/Frame.v
theories/PropPass.v
theories/Kbd.v
theories/PropKbd.v
theories/Ndef.v
theories/PropNdef.v
theories/PinWp.v
theories/Admin.v
theories/PropAdmin.v
theories/Device.v
theories/PropDevice.v
theories/Hid.v
theories/PropHid.v
theories/Usb.v
theories/UsbSpec.v
theories/PropUsb.v
theories/Nfc.v
theories/PropNfc.v
theories/Key.v
theories/PropKey.v
theories/Piv.v
theories/PivSpec.v
theories/PropPivGa.v
theories/PivFrame.v
theories/PropPivAuth.v
theories/PropPivPin.v
theories/PropPivData.v
theories/NonInt.v
theories/PropPivSecret.v
theories/PropPivTouch.v
theories/PivPins.v
theories/PropPivPuk.v
theories/PropPivReset.v
theories/Pgp.v
theories/PgpSpec.v
theories/PgpFlags.v
theories/PropPgpAccess.v
theories/PropPgpCount.v
theories/PropPgpTouch.v
theories/PropPgpEnd.v
theories/PropPgpChange.v
theories/Ctap.v
theories/CtapSpec.v
theories/CtapFrame.v
theories/CtapToy.v
theories/PropCtapCount.v
theories/PropCtapPin.v
theories/CtapExec.v
theories/PropCtapNewPin.v
theories/CtapParse.v
theories/PropCtapRp.v
theories/CtapRel.v
theories/PropCtapToken.v
theories/CtapCred.v
theories/PropCtapCred.v
theories/PropCtapNext.v
theories/PropCtapApdu.v
theories/PropCtapReset.v
theories/PropCtapBlob.v
theories/CtapStore.v
theories/PropCtapCrash.v
theories/CtapMeta.v
theories/PropCtapMeta.v
theories/CtapReq.v
theories/PropCtapReq.v
theories/PropCtapTouch.v
theories/PropCtapRead.v
theories/Script.v
theories/PropPivInstall.v
theories/PropCtapInstall.v
theories/PropOathInstall.v
theories/PropNdefInstall.v
theories/PropAdminInstall.v
theories/PropCtapSign.v
theories/PropCtapExclude.v
theories/PropPivKeys.v
theories/PropPgpKeys.v
theories/PropCtapAnswered.v
theories/PropCtapLive.v
theories/PropOathSecret.v
theories/PropCtapBlobAnswered.v
theories/PropPassSecret.v
theories/PropCtapNextLive.v
theories/PropCtapOwn.v
theories/PropCtapKept.v
theories/PropPivBoot.v
theories/PropPgpBoot.v
theories/PropCtapBoot.v
theories/PropOathBoot.v
theories/PropAdminBoot.v
theories/PropNdefBoot.v
theories/PropCtapFiles.v
theories/PropPivFiles.v
theories/PropPgpFiles.v
theories/PropNdefFiles.v
